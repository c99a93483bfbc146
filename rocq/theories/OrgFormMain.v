(** Taking the areas of a form out and putting them back. *)
From Coq Require Import String Permutation Lia.
From Verif Require Import PyBase PyText JsonText UpdateDictProofs OrgForm OrgFormProofs Spec_OrgForm.
Set Implicit Arguments.
Open Scope list_scope.
Open Scope N_scope.

(** ** Words of the model and words of the specification *)
Lemma under_old p pg n : under (under p pg) n = old_path pg p n.
Proof. unfold under, old_path. destruct p, pg, n; cbn [filter length Nat.eqb negb join app]; rewrite <- ?app_assoc; reflexivity. Qed.
Lemma under_rp p pg : under p pg = old_path pg p [].
Proof. unfold under, old_path. destruct p, pg; reflexivity. Qed.
Lemma full_under rp n : n <> [] -> full rp n = under rp n.
Proof. destruct rp, n; reflexivity || congruence. Qed.
Lemma area_full pg p n : old_path pg p (w_include ++ n) = full (old_path pg p []) (w_include ++ n).
Proof. rewrite <- under_old, full_under by discriminate. rewrite (under_rp p pg). reflexivity. Qed.
Lemma page_ok e pg : page_is e pg -> page_of e = Ok pg.
Proof. unfold page_is, page_of. change fe_page with k_page. destruct (dget k_page e) as [[| | | | |]|]; intros H; try contradiction; subst; reflexivity. Qed.
Lemma is_area_prefix w n : is_area (prefix_of w ++ n) = Some w.
Proof. destruct w; reflexivity. Qed.
Lemma skip_prefix w n : skipn 8 (prefix_of w ++ n) = n.
Proof. destruct w; reflexivity. Qed.
Lemma plain_not_area n : plain_name n -> is_area n = None.
Proof.
  intros H. unfold is_area. destruct (str_eqb (firstn 8 n) w_include) eqn:E; [apply str_eqb_spec in E; exfalso; exact (H true E)|].
  destruct (str_eqb (firstn 8 n) w_includr) eqn:E2; [apply str_eqb_spec in E2; exfalso; exact (H false E2)|]. reflexivity.
Qed.
Lemma name_ok e n : dget fe_name e = Some (Jstr n) -> name_of e = Ok n.
Proof. unfold name_of. change k_name with fe_name. intros ->. reflexivity. Qed.

(** ** Fields *)
Lemma dset_dset V k (v w : V) d : dset k v (dset k w d) = dset k v d.
Proof. induction d as [|[x y] d IH]; cbn; [rewrite str_eqb_refl; reflexivity|]. destruct (str_eqb k x) eqn:E; cbn; rewrite E; [reflexivity|]. rewrite IH. reflexivity. Qed.
Lemma dset_same V k (v : V) d : dget k d = Some v -> dset k v d = d.
Proof. induction d as [|[x y] d IH]; cbn; [discriminate|]. destruct (str_eqb k x); [intros E; injection E as ->; reflexivity|]. intros E. rewrite (IH E). reflexivity. Qed.
Lemma dset_last V k (v : V) d : dget k d = None -> dset k v d = d ++ [(k, v)].
Proof. induction d as [|[x y] d IH]; cbn; [reflexivity|]. destruct (str_eqb k x); [discriminate|]. intros E. rewrite (IH E). reflexivity. Qed.
Lemma ddel_last V k (v : V) d : dget k d = None -> ddel k (d ++ [(k, v)]) = d.
Proof. induction d as [|[x y] d IH]; cbn; [rewrite str_eqb_refl; reflexivity|]. destruct (str_eqb k x); [discriminate|]. intros E. rewrite (IH E). reflexivity. Qed.
Lemma dget_last V k (v : V) d : dget k d = None -> dget k (d ++ [(k, v)]) = Some v.
Proof. intros H. rewrite dget_app, H. cbn. rewrite str_eqb_refl. reflexivity. Qed.

(** ** One area *)
(** an area that was taken out: whether it is written, its name, its document *)
Definition occ : Type := (bool * list N * area)%type.
Definition collect (l : list occ) (areas : list (list N * area)) : list (list N * area) :=
  fold_left (fun acc (o : occ) => let '(w, n, a) := o in if w : bool then dset n a acc else acc) l areas.
Lemma collect_app l1 l2 areas : collect (l1 ++ l2) areas = collect l2 (collect l1 areas).
Proof. unfold collect. apply fold_left_app. Qed.
(** the file of an area holds what was taken out *)
Definition holds_area (read : list N -> res area) (o : occ) : Prop :=
  let '(w, n, a) := o in exists b, read n = Ok b /\ a_tree b = a_tree a /\ NoDup (map fst (a_data b)) /\ same_map (a_data b) (a_data a).
Definition no_pages (root : jd) (pl : place) : Prop := p_written pl = false -> dget (p_path pl ++ w_pages) root = None.
Definition to_written (o : occ) : occ := let '(_, n, a) := o in (true, n, a).

Lemma full_nil k : full [] k = k. Proof. reflexivity. Qed.
Lemma taken_move rp root l root' : taken rp root l root' -> taken [] root (fl rp l) root'.
Proof.
  intros (A1 & A2 & A3 & A4 & A5). split; [exact A1|]. split; [exact A2|]. split; [apply fl_nodup; exact A3|]. split.
  - intros c v Hi. unfold fl in Hi. apply in_map_iff in Hi. destruct Hi as ([c0 v0] & E & Hi). injection E as <- <-. exact (A4 _ _ Hi).
  - intros k. rewrite A5. replace (fl [] (fl rp l)) with (fl rp l); [reflexivity|]. unfold fl. rewrite map_map. cbn [fst snd]. symmetry. rewrite map_ext with (g := fun e => (full rp (fst e), snd e)); [reflexivity|]. intros [c v]. reflexivity.
Qed.
Lemma put_move rp q l q' : put_in rp q l q' -> put_in [] q (fl rp l) q'.
Proof.
  intros (A1 & A2). split; [exact A1|]. intros k. rewrite A2. replace (fl [] (fl rp l)) with (fl rp l); [reflexivity|]. unfold fl. rewrite map_map. cbn [fst snd]. symmetry. rewrite map_ext with (g := fun e => (full rp (fst e), snd e)); [reflexivity|]. intros [c v]. reflexivity.
Qed.
Lemma eqd_sym a b : eqd a b -> eqd b a. Proof. intros H k. symmetry. apply H. Qed.

(** the data of an area are what stood under its path, and stand there no more *)
Definition moved (root root' : jd) (pl : place) (data : jd) : Prop :=
  exists rp, p_path pl = under rp (fe_include ++ p_name pl) /\ forall c v, dget c data = Some v ->
    (exists t, c = fe_include ++ p_name pl ++ t) /\ dget (under rp c) root = Some v /\ dget (under rp c) root' = None.
Lemma moved_less root0 root root' root1 pl data l0 l1 : taken [] root0 l0 root -> taken [] root' l1 root1 -> moved root root' pl data -> moved root0 root1 pl data.
Proof.
  intros (_ & _ & _ & _ & H0) (_ & _ & _ & _ & H1) (rp & E & H). exists rp. split; [exact E|]. intros c v Hc. destruct (H c v Hc) as (A & B & C). split; [exact A|]. split.
  - rewrite H0 in B. destruct (dget (under rp c) (fl [] l0)); [discriminate|exact B].
  - rewrite H1, C. destruct (dget (under rp c) (fl [] l1)); reflexivity.
Qed.
Lemma moved_one pg p n w root l root' data' : let rp := old_path pg p [] in taken rp root l root' -> added [] l data' -> on_path (w_include ++ n) l -> moved root root' (mkplace w n (old_path pg p (w_include ++ n))) data'.
Proof.
  intros rp (_ & _ & A3 & A4 & A5) A O. exists rp. cbn [p_path p_name]. split; [rewrite area_full, full_under by discriminate; reflexivity|]. intros c v Hc. rewrite A in Hc. cbn [dget] in Hc.
  destruct (dget c l) as [v'|] eqn:E; [|discriminate]. injection Hc as ->. pose proof (dget_in _ _ E) as Hi. unfold on_path in O. rewrite Forall_forall in O. destruct (O _ Hi) as (t & Et). cbn [fst] in Et. rewrite <- app_assoc in Et.
  split; [exists t; exact Et|]. assert (c <> []) as Hne by (rewrite Et; discriminate). rewrite <- full_under by exact Hne. split; [apply A4; exact Hi|]. rewrite A5, dget_fl, E. reflexivity.
Qed.
Definition occ_of (root root' : jd) (pl : place) (o : occ) : Prop := let '(w, n, a) := o in p_written pl = w /\ p_name pl = n /\ moved root root' pl (a_data a).
Lemma occs_less root0 root root' root1 l0 l1 pl os : taken [] root0 l0 root -> taken [] root' l1 root1 -> Forall2 (occ_of root root') pl os -> Forall2 (occ_of root0 root1) pl os.
Proof. intros H0 H1 H. induction H as [|x [[w n] a] pl os (A & B & C) _ IH]; constructor; [|exact IH]. split; [exact A|]. split; [exact B|]. eapply moved_less; eassumption. Qed.
Lemma one_area fuel w n pg p c root root' data' : NoDup (map fst root) -> no_null root ->
  (w = false -> dget (old_path pg p (w_include ++ n) ++ w_pages) root = None) ->
  pop_area fuel (old_path pg p []) c (old_path pg p (w_include ++ n)) root [] = Ok (root', data') ->
  exists l, taken [] root l root' /\ moved root root' (mkplace w n (old_path pg p (w_include ++ n))) data' /\
    forall q d, NoDup (map fst d) -> same_map d data' -> exists q' d', put_area fuel (old_path pg p []) (negb w) c (prefix_of w ++ n) q d = Ok (q', d') /\ put_in [] q l q'.
Proof.
  intros Hn Hnn Hp H. set (rp := old_path pg p []) in *. rewrite area_full in H, Hp. fold rp in H, Hp.
  assert (Hcp : w_include ++ n <> []) by discriminate.
  destruct w.
  - destruct (@area_back rp fuel c _ _ _ _ _ Hcp Hn Hnn H) as (l & T & A & O & B). exists (fl rp l). split; [apply taken_move; exact T|]. split; [exact (@moved_one pg p n _ root l root' data' T A O)|]. intros q d Hd Hs.
    destruct (B [] (fun c Hc => match Hc with end) (NoDup_nil _) q d Hd) as (q' & d' & E & P & _ ).
    + intros k. rewrite Hs, A, app_nil_r. cbn [dget]. destruct (dget k l); reflexivity.
    + exists q', d'. split; [exact E|apply put_move; exact P].
  - assert (Ecp : w_include ++ n = w_include ++ skipn 8 (prefix_of false ++ n)) by reflexivity. rewrite Ecp in H. rewrite full_app in Hp. destruct (@area_back_read rp fuel c (prefix_of false ++ n) root [] root' data' Hn Hnn (Hp eq_refl) H) as (l & T & A & O & B).
    exists (fl rp l). split; [apply taken_move; exact T|]. split; [exact (@moved_one pg p n _ root l root' data' T A O)|]. intros q d Hd Hs. destruct (B q d Hd) as (q' & d' & E & P & _ ).
    + intros k. rewrite Hs, A, app_nil_r. cbn [dget]. destruct (dget k l); reflexivity.
    + exists q', d'. split; [exact E|apply put_move; exact P].
Qed.

(** ** All the areas *)
Definition get_go (rec : list jval -> list N -> jd -> list (list N * area) -> res (list jval * jd * list (list N * area))) (fuel : nat) (path : list N) :=
  fix go (tree : list jval) (root : jd) (areas : list (list N * area)) : res (list jval * jd * list (list N * area)) :=
       match tree with
       | [] => Ok ([], root, areas)
       | j :: rest =>
         e <- fields j ;; name <- name_of e ;; page <- page_of e ;;
         ' (j', root, areas) <-
           match is_area name with
           | Some writable =>
             let t := match dget k_child e with Some t => t | None => Jlist [] end in
             l <- items (Some t) ;;
             ' (root, data) <- pop_area fuel (old_path page path []) l (old_path page path (w_include ++ skipn 8 name)) root [] ;;
             Ok (Jobj (dset k_child (Jstr w_separate) (ddel k_child e)), root, if writable then dset (skipn 8 name) (mkarea data t) areas else areas)
           | None =>
             c <- items (dget k_child e) ;;
             match c with
             | [] => Ok (j, root, areas)
             | _ => ' (c', root, areas) <- rec c (old_path page path name) root areas ;; Ok (Jobj (dset k_child (Jlist c') e), root, areas)
             end
           end ;;
         ' (rest', root, areas) <- go rest root areas ;; Ok (j' :: rest', root, areas)
       end.
Lemma get_areas_S fuel tree path root areas : get_areas (S fuel) tree path root areas = get_go (get_areas fuel) fuel path tree root areas.
Proof. reflexivity. Qed.
Definition putx_go (rec : list jval -> list N -> jd -> res (list jval * jd)) (fuel : nat) (read : list N -> res area) (path : list N) :=
  fix go (tree : list jval) (root : jd) : res (list jval * jd) :=
       match tree with
       | [] => Ok ([], root)
       | j :: rest =>
         e <- fields j ;; name <- name_of e ;; page <- page_of e ;;
         ' (j', root) <-
           match is_area name with
           | Some writable =>
             a <- read (skipn 8 name) ;;
             l <- items (Some (a_tree a)) ;;
             ' (root, _) <- put_area fuel (old_path page path []) (negb writable) l name root (a_data a) ;;
             Ok (Jobj (dset k_child (a_tree a) e), root)
           | None =>
             c <- items (dget k_child e) ;;
             match c with
             | [] => Ok (j, root)
             | _ => ' (c', root) <- rec c (old_path page path name) root ;; Ok (Jobj (dset k_child (Jlist c') e), root)
             end
           end ;;
         ' (rest', root) <- go rest root ;; Ok (j' :: rest', root)
       end.
Lemma put_areas_S fuel read tree path root : put_areas (S fuel) read tree path root = putx_go (put_areas fuel read) fuel read path tree root.
Proof. reflexivity. Qed.
Lemma bind_trip A B C D (r : res (A * B * C)) (k : A * B * C -> res D) v : (x <- r ;; k x) = Ok v -> exists a b c, r = Ok (a, b, c) /\ k (a, b, c) = Ok v.
Proof. destruct r as [[[a b] c]|]; [|discriminate]. intros H. exists a, b, c. split; [reflexivity|exact H]. Qed.
Lemma no_pages_taken root l root' pl : taken [] root l root' -> Forall (no_pages root) pl -> Forall (no_pages root') pl.
Proof.
  intros (_ & _ & _ & _ & H). apply Forall_impl. intros x Hx Hw. rewrite H, (Hx Hw). destruct (dget (p_path x ++ w_pages) (fl [] l)); reflexivity.
Qed.
Lemma name_dset e v : name_of (dset k_child v e) = name_of e.
Proof. unfold name_of. rewrite dget_dset_other by discriminate. reflexivity. Qed.
Lemma page_dset e v : page_of (dset k_child v e) = page_of e.
Proof. unfold page_of. rewrite dget_dset_other by discriminate. reflexivity. Qed.
Lemma name_drop e0 v : name_of (e0 ++ [(k_child, v)]) = name_of e0.
Proof. unfold name_of. rewrite dget_app. destruct (dget k_name e0); reflexivity. Qed.
Lemma page_drop e0 v : page_of (e0 ++ [(k_child, v)]) = page_of e0.
Proof. unfold page_of. rewrite dget_app. destruct (dget k_page e0); reflexivity. Qed.

Definition gets_back fuel : Prop := forall tree p pl root areas tree' root' areas', areas_at p tree pl -> NoDup (map fst root) -> no_null root -> Forall (no_pages root) pl ->
  get_areas fuel tree p root areas = Ok (tree', root', areas') ->
  exists L os, taken [] root L root' /\ areas' = collect os areas /\ Forall2 (occ_of root root') pl os /\ length tree' = length tree /\
    (forall treew ar, writable_tree tree treew -> exists t2, get_areas fuel treew p root ar = Ok (t2, root', collect (map to_written os) ar)) /\
    forall read q, Forall (holds_area read) os -> exists q', put_areas fuel read tree' p q = Ok (tree, q') /\ put_in [] q L q'.
Lemma gets_back_all fuel : gets_back fuel.
Proof.
  induction fuel as [|fuel IH]; [intros ? ? ? ? ? ? ? ? ? ? ? ? H; discriminate|]. intros tree p pl root areas tree' root' areas' Ha Hn Hnn Hp. rewrite get_areas_S. intros H.
  setoid_rewrite put_areas_S. setoid_rewrite get_areas_S. revert root areas tree' root' areas' Hn Hnn Hp H.
  induction Ha as [p0|p0 e rest w n pg c pl Hname Hpg Hlast _ IHr|p0 e rest n pg pl Hname Hpl Hpg Hch _ IHr|p0 e rest n pg c0 c l1 l2 Hname Hpl Hpg Hch Hin _ _ IHr];
    intros root areas tree' root' areas' Hn Hnn Hp H; cbn [get_go] in H.
  - injection H as <- <- <-. exists [], []. split; [apply taken_nil; exact Hn|]. split; [reflexivity|]. split; [constructor|]. split; [reflexivity|]. split; [intros treew ar Hw; inversion Hw; subst; exists []; reflexivity|]. intros read q _. exists q. split; [reflexivity|apply put_nil].
  - destruct Hlast as (e0 & -> & Hno). assert (Hpo := page_ok _ _ Hpg). assert (Hne := name_ok _ Hname). cbn [fields bind] in H. rewrite Hne in H. cbn [bind] in H. rewrite Hpo in H. cbn [bind] in H.
    rewrite is_area_prefix in H. change fe_child with k_child in *. rewrite (@dget_last _ _ _ _ Hno) in H. cbv zeta in H. cbn [items bind] in H. rewrite skip_prefix, (@ddel_last _ _ _ _ Hno), (@dset_last _ _ _ _ Hno) in H.
    apply bind_trip in H. destruct H as (j' & r1 & a1 & H1 & H). apply bind_pair in H1. destruct H1 as (r1' & data' & H1 & E1). injection E1 as <- <- <-.
    apply bind_trip in H. destruct H as (rest' & r2 & a2 & H2 & E2). injection E2 as <- <- <-.
    inversion Hp as [|? ? Hp1 Hp2]; subst. unfold no_pages in Hp1. cbn [p_written p_path] in Hp1. change fe_include with w_include in Hp1. rewrite under_old in Hp1.
    destruct (@one_area fuel w n pg p0 c _ _ _ Hn Hnn Hp1 H1) as (L1 & T1 & M1 & B1).
    destruct (IHr _ _ _ _ _ (proj1 (proj2 T1)) (taken_null T1 Hnn) (no_pages_taken T1 Hp2) H2) as (L2 & os & T2 & A2 & O2 & Le & W2 & B2).
    pose proof (taken_app T1 T2) as T. exists (L1 ++ L2), ((w, n, mkarea data' (Jlist c)) :: os). split; [exact T|]. split; [rewrite A2; destruct w; reflexivity|].
    split; [constructor; [|exact (occs_less T1 (taken_nil [] _ (proj1 (proj2 T2))) O2)]; split; [reflexivity|]; split; [reflexivity|]; cbn [p_path]; change fe_include with w_include; rewrite under_old; exact (moved_less (taken_nil [] _ Hn) T2 M1)|]. split; [cbn [length]; rewrite Le; reflexivity|].
    split.
    { intros treew ar Hw. inversion Hw as [|? w' n' ? rest2 Hname' Hw'|? n' ? ? Hname' Hpl'|? n' ? ? ? ? ? Hname' Hpl']; subst.
      - rewrite Hname in Hname'. injection Hname' as Hq. assert (n' = n) by (rewrite <- (skip_prefix w n), <- (skip_prefix w' n'), Hq; reflexivity). subst n'. destruct (W2 rest2 (dset n (mkarea data' (Jlist c)) ar) Hw') as (t2 & W3).
        cbn [get_go fields bind]. unfold name_of at 1. rewrite dget_dset_same. cbn [bind]. unfold page_of in *. rewrite dget_dset_other by discriminate. rewrite Hpo. cbn [bind]. change (fe_include ++ n) with (prefix_of true ++ n). rewrite is_area_prefix, dget_dset_other by discriminate.
        rewrite (@dget_last _ _ _ _ Hno). cbv zeta. cbn [items bind]. rewrite skip_prefix, H1. cbn [bind]. rewrite W3. cbn [bind]. eexists. reflexivity.
      - exfalso. rewrite Hname in Hname'. injection Hname' as <-. apply (Hpl' w). destruct w; reflexivity.
      - exfalso. rewrite Hname in Hname'. injection Hname' as <-. apply (Hpl' w). destruct w; reflexivity. }
    intros read q Hr. inversion Hr as [|? ? Hr1 Hr2]; subst. destruct Hr1 as (b & Eb & Et & Nb & Sb). cbn [a_tree a_data] in Et, Sb.
    destruct (B1 q (a_data b) Nb Sb) as (q1 & d1 & P1 & P2). destruct (B2 read q1 Hr2) as (q2 & P3 & P4). exists q2.
    split; [|eapply put_app; [apply T|exact P2|exact P4]].
    cbn [putx_go fields bind]. rewrite name_drop. rewrite name_drop in Hne. rewrite Hne. cbn [bind]. rewrite page_drop. rewrite page_drop in Hpo. rewrite Hpo. cbn [bind]. rewrite is_area_prefix, skip_prefix, Eb. cbn [bind]. rewrite Et. cbn [items bind].
    rewrite P1. cbn [bind]. rewrite P3. cbn [bind]. rewrite <- (@dset_last _ _ (Jstr w_separate) _ Hno), dset_dset, (@dset_last _ _ _ _ Hno). reflexivity.
  - assert (Hpo := page_ok _ _ Hpg). assert (Hne := name_ok _ Hname). cbn [fields bind] in H. rewrite Hne in H. cbn [bind] in H. rewrite Hpo in H. cbn [bind] in H. rewrite (plain_not_area Hpl) in H.
    change fe_child with k_child in Hch. assert (Hi : items (dget k_child e) = Ok []) by (destruct Hch as [-> | ->]; reflexivity). rewrite Hi in H. cbn [bind] in H.
    apply bind_trip in H. destruct H as (rest' & r2 & a2 & H2 & E2). injection E2 as <- <- <-.
    destruct (IHr _ _ _ _ _ Hn Hnn Hp H2) as (L2 & os & T2 & A2 & O2 & Le & W2 & B2). exists L2, os. split; [exact T2|]. split; [exact A2|]. split; [exact O2|]. split; [cbn [length]; rewrite Le; reflexivity|].
    split.
    { intros treew ar Hw. inversion Hw as [|? w' n' ? rest2 Hname' Hw'|? n' ? rest2 Hname' Hpl' Hch' Hw'|? n' ? ? ? ? ? Hname' Hpl' Hch']; subst.
      - exfalso. rewrite Hname in Hname'. injection Hname' as ->. apply (Hpl w'). destruct w'; reflexivity.
      - destruct (W2 rest2 ar Hw') as (t2 & W3). cbn [get_go fields bind]. rewrite Hne. cbn [bind]. rewrite Hpo. cbn [bind]. rewrite (plain_not_area Hpl), Hi. cbn [bind]. rewrite W3. cbn [bind]. eexists. reflexivity.
      - exfalso. change fe_child with k_child in Hch'. destruct Hch as [Hc|Hc]; rewrite Hc in Hch'; discriminate. }
    intros read q Hr. destruct (B2 read q Hr) as (q2 & P3 & P4). exists q2. split; [|exact P4]. cbn [putx_go fields bind]. rewrite Hne. cbn [bind]. rewrite Hpo. cbn [bind]. rewrite (plain_not_area Hpl), Hi. cbn [bind]. rewrite P3. reflexivity.
  - assert (Hpo := page_ok _ _ Hpg). assert (Hne := name_ok _ Hname). cbn [fields bind] in H. rewrite Hne in H. cbn [bind] in H. rewrite Hpo in H. cbn [bind] in H. rewrite (plain_not_area Hpl) in H.
    change fe_child with k_child in Hch. rewrite Hch in H. cbn [items bind] in H. rewrite under_old in Hin. apply bind_trip in H. destruct H as (j' & r1 & a1 & H1 & H). apply bind_trip in H1. destruct H1 as (c' & r1' & a1' & H1 & E1). injection E1 as <- <- <-.
    apply bind_trip in H. destruct H as (rest' & r2 & a2 & H2 & E2). injection E2 as <- <- <-. apply Forall_app in Hp. destruct Hp as [Hp1 Hp2].
    destruct (IH _ _ _ _ _ _ _ _ Hin Hn Hnn Hp1 H1) as (L1 & os1 & T1 & A1 & O1 & Le1 & W1 & B1).
    destruct (IHr _ _ _ _ _ (proj1 (proj2 T1)) (taken_null T1 Hnn) (no_pages_taken T1 Hp2) H2) as (L2 & os2 & T2 & A2 & O2 & Le & W2 & B2).
    pose proof (taken_app T1 T2) as T. exists (L1 ++ L2), (os1 ++ os2). split; [exact T|]. split; [rewrite collect_app, A2, A1; reflexivity|]. split; [apply Forall2_app; [exact (occs_less (taken_nil [] _ Hn) T2 O1)|exact (occs_less T1 (taken_nil [] _ (proj1 (proj2 T2))) O2)]|]. split; [cbn [length]; rewrite Le; reflexivity|].
    split.
    { intros treew ar Hw. inversion Hw as [|? w' n' ? rest2 Hname' Hw'|? n' ? rest2 Hname' Hpl' Hch' Hw'|? n' c0' cc c2 ? rest2 Hname' Hpl' Hch' Hwc Hw']; subst.
      - exfalso. rewrite Hname in Hname'. injection Hname' as ->. apply (Hpl w'). destruct w'; reflexivity.
      - exfalso. change fe_child with k_child in Hch'. destruct Hch' as [Hc|Hc]; rewrite Hc in Hch; discriminate.
      - change fe_child with k_child in Hch'. rewrite Hch in Hch'. injection Hch' as <- <-. destruct (W1 c2 ar Hwc) as (t1 & W3). destruct (W2 rest2 (collect (map to_written os1) ar) Hw') as (t2 & W4).
        cbn [get_go fields bind]. change fe_child with k_child. rewrite name_dset, Hne. cbn [bind]. rewrite page_dset, Hpo. cbn [bind]. rewrite (plain_not_area Hpl), dget_dset_same. cbn [items bind].
        inversion Hwc; subst; rewrite W3; cbn [bind]; rewrite W4; cbn [bind]; eexists; rewrite map_app, collect_app; reflexivity. }
    intros read q Hr. apply Forall_app in Hr. destruct Hr as [Hr1 Hr2]. destruct (B1 read q Hr1) as (q1 & P1 & P2). destruct (B2 read q1 Hr2) as (q2 & P3 & P4). exists q2. split; [|eapply put_app; [apply T|exact P2|exact P4]].
    cbn [putx_go fields bind]. rewrite name_dset, Hne. cbn [bind]. rewrite page_dset, Hpo. cbn [bind]. rewrite (plain_not_area Hpl), dget_dset_same. cbn [items bind]. destruct c' as [|x c']; [discriminate|].
    rewrite P1. cbn [bind]. rewrite P3. cbn [bind]. rewrite dset_dset, (@dset_same _ _ _ _ Hch). reflexivity.
Qed.
