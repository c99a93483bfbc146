(** Splitting a form that was built: the pieces do not depend on the order of the data, and what stays keeps its order. *)
From Coq Require Import String Lia.
From Verif Require Import PyBase PyText JsonText OrgForm Spec_OrgForm OrgFormProofs OrgFormMain OrgFormDocs.
Set Implicit Arguments.
Open Scope list_scope.
Open Scope N_scope.

Lemma nodup_app_no A (a b : list A) : NoDup (a ++ b) -> forall x, In x a -> ~ In x b.
Proof. induction a as [|y a IH]; intros H x [] Q; inversion H as [|? ? H1 H2]; subst; [apply H1; apply in_or_app; right; exact Q|exact (IH H2 x H0 Q)]. Qed.
Definition nd (r : jd) : Prop := NoDup (map fst r).
(** what is left of a dictionary: its order is kept *)
Definition cutdown (r r' : jd) : Prop := exists f, r' = filter f r.
Definition after (r1' r2 r2' : jd) : Prop := eqd r1' r2' /\ nd r1' /\ nd r2' /\ cutdown r2 r2'.
Lemma filter_filter A (f g : A -> bool) l : filter f (filter g l) = filter (fun x => g x && f x) l.
Proof. induction l as [|x l IH]; [reflexivity|]. cbn. destruct (g x); cbn; [destruct (f x)|]; rewrite IH; reflexivity. Qed.
Lemma filter_true A (l : list A) : filter (fun _ => true) l = l.
Proof. induction l as [|x l IH]; [reflexivity|]. cbn. rewrite IH. reflexivity. Qed.
Lemma filter_eq A (f g : A -> bool) l : (forall x, In x l -> f x = g x) -> filter f l = filter g l.
Proof. intros H. induction l as [|x l IH]; [reflexivity|]. cbn. rewrite (H x (or_introl eq_refl)), IH by (intros y Hy; apply H; right; exact Hy). reflexivity. Qed.
Lemma ddel_filter k (d : jd) : nd d -> ddel k d = filter (fun e => negb (str_eqb k (fst e))) d.
Proof.
  induction d as [|[x v] d IH]; intros H; [reflexivity|]. inversion H as [|? ? H1 H2]; subst. cbn. destruct (str_eqb k x) eqn:E; cbn.
  - apply str_eqb_spec in E. subst x. rewrite <- (filter_true d) at 1. apply filter_eq. intros [y w] Hy. cbn. destruct (str_eqb k y) eqn:E2; [|reflexivity]. apply str_eqb_spec in E2. subst y. exfalso. apply H1. apply in_map_iff. exists (k, w). split; [reflexivity|exact Hy].
  - rewrite IH by exact H2. reflexivity.
Qed.
Lemma cut_refl r : cutdown r r.
Proof. exists (fun _ => true). symmetry. apply filter_true. Qed.
Lemma cut_trans a b c : cutdown a b -> cutdown b c -> cutdown a c.
Proof. intros (f & ->) (g & ->). eexists. apply filter_filter. Qed.
Lemma after_refl r1 r2 : nd r1 -> nd r2 -> eqd r1 r2 -> after r1 r2 r2.
Proof. intros H1 H2 E. repeat (split; [assumption|]). apply cut_refl. Qed.
Lemma after_del k r1 r2 : nd r1 -> nd r2 -> eqd r1 r2 -> after (ddel k r1) r2 (ddel k r2).
Proof.
  intros H1 H2 E. split; [|split; [|split]].
  - intros x. rewrite (@dget_ddel _ x k r1 H1), (@dget_ddel _ x k r2 H2). destruct (str_eqb x k); [reflexivity|apply E].
  - apply nodup_ddel. exact H1.
  - apply nodup_ddel. exact H2.
  - eexists. apply ddel_filter. exact H2.
Qed.
Lemma after_then r2 a1 a2 b1 b2 : after a1 r2 a2 -> after b1 a2 b2 -> after b1 r2 b2.
Proof. intros (_ & _ & _ & C) (E & N1 & N2 & C2). repeat (split; [assumption|]). exact (cut_trans C C2). Qed.

Section Pop.
Variable rm : list N.
Lemma pages_sim path names : forall r1 r2 data r1' data', nd r1 -> nd r2 -> eqd r1 r2 -> pop_pages rm path names r1 data = (r1', data') ->
  exists r2', pop_pages rm path names r2 data = (r2', data') /\ after r1' r2 r2'.
Proof.
  induction names as [|n names IH]; intros r1 r2 data r1' data' N1 N2 E H; cbn [pop_pages] in *.
  - injection H as <- <-. exists r2. split; [reflexivity|apply after_refl; assumption].
  - rewrite <- (E (path ++ [47] ++ n)). destruct (dget (path ++ [47] ++ n) r1) as [v|]; [|exact (IH _ _ _ _ _ N1 N2 E H)].
    pose proof (@after_del (path ++ [47] ++ n) _ _ N1 N2 E) as A. destruct A as (A1 & A2 & A3 & A4). destruct (IH _ _ _ _ _ A2 A3 A1 H) as (r2' & P & Q). exists r2'. split; [exact P|]. exact (after_then (conj A1 (conj A2 (conj A3 A4))) Q).
Qed.
Lemma panel_sim path r1 r2 data r1' data' : nd r1 -> nd r2 -> eqd r1 r2 -> pop_panel rm path r1 data = Ok (r1', data') -> exists r2', pop_panel rm path r2 data = Ok (r2', data') /\ after r1' r2 r2'.
Proof.
  intros N1 N2 E H. unfold pop_panel in *. rewrite <- (E (path ++ w_pages)). destruct (dget (path ++ w_pages) r1) as [[]|]; try discriminate.
  - injection H as <- <-. eexists. split; [reflexivity|apply after_del; assumption].
  - destruct (page_names l) as [names|]; [|discriminate]. cbn [bind] in *. pose proof (@after_del (path ++ w_pages) _ _ N1 N2 E) as (A1 & A2 & A3 & A4).
    match type of H with Ok ?x = _ => destruct x as [a b] eqn:Ep end. injection H as <- <-. destruct (@pages_sim _ _ _ _ _ _ _ A2 A3 A1 Ep) as (r2' & P & Q). exists r2'. rewrite P. split; [reflexivity|]. exact (after_then (conj A1 (conj A2 (conj A3 A4))) Q).
  - injection H as <- <-. eexists. split; [reflexivity|apply after_refl; assumption].
Qed.
Definition sims (pop : list jval -> list N -> jd -> jd -> res (jd * jd)) : Prop := forall tree path r1 r2 data r1' data', nd r1 -> nd r2 -> eqd r1 r2 -> pop tree path r1 data = Ok (r1', data') ->
  exists r2', pop tree path r2 data = Ok (r2', data') /\ after r1' r2 r2'.
Lemma go_sim pop : sims pop -> sims (fun tree path => pop_go rm pop path tree).
Proof.
  intros Hp tree path. induction tree as [|j tree IH]; intros r1 r2 data r1' data' N1 N2 E H; cbn [pop_go] in *.
  - injection H as <- <-. eexists. split; [reflexivity|apply after_refl; assumption].
  - destruct (fields j) as [e|]; [|discriminate]. cbn [bind] in *. destruct (name_of e) as [name|]; [|discriminate]. cbn [bind] in *. destruct (page_of e) as [page|]; [|discriminate]. cbn [bind] in *. cbv zeta in *.
    rewrite <- (E (old_path page path name)). destruct (dget (old_path page path name) r1) as [v|]; [|discriminate]. destruct (items (dget k_child e)) as [c|]; [|discriminate]. cbn [bind] in *.
    apply bind_pair in H. destruct H as (a & b & H1 & H2). pose proof (@after_del (old_path page path name) _ _ N1 N2 E) as A. destruct A as (A1 & A2 & A3 & A4).
    assert (exists a2, (match c with [] => Ok (ddel (old_path page path name) r2, dset (cut rm (old_path page path name)) v data) | _ => pop c (old_path page path name) (ddel (old_path page path name) r2) (dset (cut rm (old_path page path name)) v data) end) = Ok (a2, b) /\ after a r2 a2) as (a2 & P1 & B).
    { destruct c as [|c0 c].
      - injection H1 as <- <-. eexists. split; [reflexivity|]. split; [exact A1|split; [exact A2|split; assumption]].
      - destruct (Hp _ _ _ _ _ _ _ A2 A3 A1 H1) as (a2 & P1 & B). exists a2. split; [exact P1|]. exact (after_then (conj A1 (conj A2 (conj A3 A4))) B). }
    rewrite P1. cbn [bind]. destruct B as (B1 & B2 & B3 & B4). destruct (IH _ _ _ _ _ B2 B3 B1 H2) as (r2' & P2 & Q). exists r2'. split; [exact P2|]. exact (after_then (conj B1 (conj B2 (conj B3 B4))) Q).
Qed.
Lemma area_sim fuel : sims (pop_area fuel rm).
Proof.
  induction fuel as [|fuel IH]; [intros ? ? ? ? ? ? ? ? ? ? H; discriminate|]. intros tree path r1 r2 data r1' data' N1 N2 E H. rewrite pop_area_S in *. apply bind_pair in H. destruct H as (a & b & H1 & H2).
  destruct (@go_sim _ IH _ _ _ _ _ _ _ N1 N2 E H1) as (a2 & P & B). rewrite P. cbn [bind]. destruct B as (B1 & B2 & B3 & B4). destruct (@panel_sim _ _ _ _ _ _ B2 B3 B1 H2) as (r2' & P2 & Q). exists r2'. split; [exact P2|]. exact (after_then (conj B1 (conj B2 (conj B3 B4))) Q).
Qed.
End Pop.
Lemma get_sim fuel : forall tree p r1 r2 areas tree' r1' areas', nd r1 -> nd r2 -> eqd r1 r2 -> get_areas fuel tree p r1 areas = Ok (tree', r1', areas') ->
  exists r2', get_areas fuel tree p r2 areas = Ok (tree', r2', areas') /\ after r1' r2 r2'.
Proof.
  induction fuel as [|fuel IH]; [intros ? ? ? ? ? ? ? ? ? ? ? H; discriminate|]. intros tree p. induction tree as [|j tree IHt]; intros r1 r2 areas tree' r1' areas' N1 N2 E H; rewrite get_areas_S in *; cbn [get_go] in *.
  - injection H as <- <- <-. eexists. split; [reflexivity|apply after_refl; assumption].
  - destruct (fields j) as [e|]; [|discriminate]. cbn [bind] in *. destruct (name_of e) as [name|]; [|discriminate]. cbn [bind] in *. destruct (page_of e) as [page|]; [|discriminate]. cbn [bind] in *.
    apply bind_trip in H. destruct H as (j' & a & ar & H1 & H). apply bind_trip in H. destruct H as (rest' & a' & ar' & H2 & H). injection H as <- <- <-.
    assert (exists a2, (match is_area name with
           | Some writable =>
             l <- items (Some (match dget k_child e with Some t => t | None => Jlist [] end)) ;;
             ' (root, data) <- pop_area fuel (old_path page p []) l (old_path page p (w_include ++ skipn 8 name)) r2 [] ;;
             Ok (Jobj (dset k_child (Jstr w_separate) (ddel k_child e)), root, if writable then dset (skipn 8 name) (mkarea data (match dget k_child e with Some t => t | None => Jlist [] end)) areas else areas)
           | None =>
             c <- items (dget k_child e) ;;
             match c with
             | [] => Ok (j, r2, areas)
             | _ => ' (c', root, areas) <- get_areas fuel c (old_path page p name) r2 areas ;; Ok (Jobj (dset k_child (Jlist c') e), root, areas)
             end
           end) = Ok (j', a2, ar) /\ after a r2 a2) as (a2 & P1 & B).
    { destruct (is_area name) as [w|].
      - cbv zeta in *. destruct (items _) as [l|]; [|discriminate]. cbn [bind] in *. apply bind_pair in H1. destruct H1 as (x & y & H1 & H3). injection H3 as <- <- <-. destruct (@area_sim (old_path page p []) fuel _ _ _ _ _ _ _ N1 N2 E H1) as (x2 & P & B). exists x2. rewrite P. split; [reflexivity|exact B].
      - destruct (items _) as [c|]; [|discriminate]. cbn [bind] in *. destruct c as [|c0 c]; [injection H1 as <- <- <-; eexists; split; [reflexivity|apply after_refl; assumption]|].
        apply bind_trip in H1. destruct H1 as (x & y & z & H1 & H3). injection H3 as <- <- <-. destruct (IH _ _ _ _ _ _ _ _ N1 N2 E H1) as (x2 & P & B). exists x2. rewrite P. split; [reflexivity|exact B]. }
    rewrite P1. cbn [bind]. destruct B as (B1 & B2 & B3 & B4). destruct (IHt _ _ _ _ _ _ B2 B3 B1 H2) as (r2' & P2 & Q). rewrite get_areas_S in P2. rewrite P2. cbn [bind]. exists r2'. split; [reflexivity|]. exact (after_then (conj B1 (conj B2 (conj B3 B4))) Q).
Qed.

(** ** What is put back comes after what was there *)
Definition grows (r r' : jd) : Prop := exists ext, map fst r' = map fst r ++ ext.
Lemma grow_refl r : grows r r. Proof. exists []. symmetry. apply app_nil_r. Qed.
Lemma grow_trans a b c : grows a b -> grows b c -> grows a c.
Proof. intros (x & X) (y & Y). exists (x ++ y). rewrite Y, X. symmetry. apply app_assoc. Qed.
Lemma grow_set k v r : grows r (dset k v r).
Proof.
  induction r as [|[x w] r (ext & IH)]; [exists [k]; reflexivity|]. cbn. destruct (str_eqb k x); [exists []; cbn; rewrite app_nil_r; reflexivity|]. exists ext. cbn. rewrite IH. reflexivity.
Qed.
Lemma pages_grow ap path _path names : forall r d r' d', put_pages ap path _path names r d = (r', d') -> grows r r'.
Proof.
  induction names as [|n names IH]; intros r d r' d' H; cbn [put_pages] in H; [injection H as <- <-; apply grow_refl|]. destruct (dget _ d); [|exact (IH _ _ _ _ H)]. exact (grow_trans (grow_set _ _ _) (IH _ _ _ _ H)).
Qed.
Lemma panel_grow ap path _path r d r' d' : put_panel ap path _path r d = Ok (r', d') -> grows r r'.
Proof.
  unfold put_panel. destruct (dget (path ++ w_pages) d) as [[]|]; intros H; try discriminate; try (injection H as <- <-; apply grow_refl).
  destruct (page_names l) as [names|]; [|discriminate]. cbn [bind] in H. match type of H with Ok ?x = _ => destruct x as [a b] eqn:Ep end. injection H as <- <-. exact (grow_trans (grow_set _ _ _) (pages_grow _ _ _ _ _ _ Ep)).
Qed.
Lemma go_grow rp rec path : (forall t q r d r' d', rec t q r d = Ok (r', d') -> grows r r') -> forall tree r d r' d', put_go rp rec path tree r d = Ok (r', d') -> grows r r'.
Proof.
  intros Hr. induction tree as [|j tree IH]; intros r d r' d' H; cbn [put_go] in H; [injection H as <- <-; apply grow_refl|].
  destruct (fields j) as [e|]; [|discriminate]. cbn [bind] in H. destruct (name_of e) as [name|]; [|discriminate]. cbn [bind] in H. destruct (page_of e) as [page|]; [|discriminate]. cbn [bind] in H. cbv zeta in H.
  destruct (dget (old_path page path name) d) as [v|]; [|discriminate]. destruct (items (dget k_child e)) as [c|]; [|discriminate]. cbn [bind] in H. apply bind_pair in H. destruct H as (a & b & H1 & H2). apply IH in H2. refine (grow_trans _ H2).
  destruct c; [injection H1 as <- <-; apply grow_set|]. apply Hr in H1. exact (grow_trans (grow_set _ _ _) H1).
Qed.
Lemma area_grow rp fuel : forall ro tree path r d r' d', put_area fuel rp ro tree path r d = Ok (r', d') -> grows r r'.
Proof.
  induction fuel as [|fuel IH]; [discriminate|]. intros ro tree path r d r' d' H. rewrite put_area_S in H. apply bind_pair in H. destruct H as (a & b & H1 & H2). apply panel_grow in H2. refine (grow_trans _ H2). eapply go_grow; [|exact H1]. intros t q x y x' y' Q. exact (IH _ _ _ _ _ _ _ Q).
Qed.
Lemma areas_grow fuel read : forall tree p r tree' r', put_areas fuel read tree p r = Ok (tree', r') -> grows r r'.
Proof.
  induction fuel as [|fuel IH]; [discriminate|]. intros tree p. induction tree as [|j tree IHt]; intros r tree' r' H; rewrite put_areas_S in H; cbn [putx_go] in H; [injection H as <- <-; apply grow_refl|].
  destruct (fields j) as [e|]; [|discriminate]. cbn [bind] in H. destruct (name_of e) as [name|]; [|discriminate]. cbn [bind] in H. destruct (page_of e) as [page|]; [|discriminate]. cbn [bind] in H.
  apply bind_pair in H. destruct H as (j' & a & H1 & H). apply bind_pair in H. destruct H as (rest' & a' & H2 & H). injection H as <- <-. rewrite <- put_areas_S in H2. apply IHt in H2. refine (grow_trans _ H2).
  destruct (is_area name) as [w|].
  - destruct (read _) as [ar|]; [|discriminate]. cbn [bind] in H1. destruct (items _) as [l|]; [|discriminate]. cbn [bind] in H1. apply bind_pair in H1. destruct H1 as (x & y & H1 & H3). injection H3 as <- <-. exact (area_grow _ _ _ _ _ _ _ H1).
  - destruct (items _) as [c|]; [|discriminate]. cbn [bind] in H1. destruct c as [|c0 c]; [injection H1 as <- <-; apply grow_refl|]. apply bind_pair in H1. destruct H1 as (x & y & H1 & H3). injection H3 as <- <-. exact (IH _ _ _ _ _ H1).
Qed.
(** what stays is what stayed, in the same order *)
Lemma eqd_same (a b : jd) : nd a -> map fst a = map fst b -> eqd a b -> a = b.
Proof.
  revert b. induction a as [|[k v] a IH]; intros [|[k2 v2] b] N1 E H; try discriminate; [reflexivity|]. cbn in E. injection E as -> E. inversion N1 as [|? ? Q1 Q2]; subst. pose proof (H k2) as Hk. cbn in Hk. rewrite !str_eqb_refl in Hk. injection Hk as ->. f_equal. apply IH; [exact Q2|exact E|].
  intros x. destruct (in_dec (list_eq_dec N.eq_dec) x (map fst a)) as [Hi|Hi].
  - pose proof (H x) as Hx. cbn in Hx. destruct (str_eqb x k2) eqn:Ex; [apply str_eqb_spec in Ex; subst; contradiction|]. exact Hx.
  - rewrite (proj1 (dget_not_in _ _) Hi). rewrite E in Hi. rewrite (proj1 (dget_not_in _ _) Hi). reflexivity.
Qed.
Lemma left_same root q q' : nd root -> nd q -> grows root q -> cutdown q q' -> eqd root q' -> q' = root.
Proof.
  intros N1 N2 (ext & Hg) (f & ->) E. 
  assert (Hs : exists qa qb, q = qa ++ qb /\ map fst qa = map fst root /\ map fst qb = ext).
  { exists (firstn (length root) q), (skipn (length root) q). split; [symmetry; apply firstn_skipn|]. rewrite <- firstn_map, <- skipn_map, Hg. rewrite <- (map_length fst root). split; [rewrite firstn_app, firstn_all, Nat.sub_diag; cbn; apply app_nil_r|rewrite skipn_app, skipn_all, Nat.sub_diag; reflexivity]. }
  destruct Hs as (qa & qb & -> & Ha & Hb). rewrite filter_app in *.
  assert (Nq : forall k v v', In (k, v) (qa ++ qb) -> In (k, v') (qa ++ qb) -> v = v') by (intros k v v' I1 I2; apply (@in_dget _ _ _ _ N2) in I1, I2; congruence).
  assert (F1 : filter f qa = qa).
  { rewrite <- (filter_true qa) at 2. apply filter_eq. intros [k v] Hi. assert (Hk : In k (map fst root)) by (rewrite <- Ha; apply in_map_iff; exists (k, v); split; [reflexivity|exact Hi]).
    destruct (dget k root) as [w|] eqn:Ew; [|apply dget_not_in in Ew; contradiction]. rewrite E in Ew. apply dget_in in Ew. rewrite <- filter_app in Ew. apply filter_In in Ew. destruct Ew as [I1 I2]. rewrite (Nq k v w (in_or_app _ _ _ (or_introl Hi)) I1). exact I2. }
  assert (F2 : filter f qb = []).
  { destruct (filter f qb) as [|[k v] l] eqn:El; [reflexivity|]. exfalso. pose proof (@in_eq _ (k, v) l) as Hi0. rewrite <- El in Hi0. pose proof Hi0 as Hi. apply filter_In in Hi. destruct Hi as [Hi _].
    assert (Hn : In k (map fst qb)) by (apply in_map_iff; exists (k, v); split; [reflexivity|exact Hi]).
    unfold nd in N2. rewrite map_app in N2. assert (~ In k (map fst qa)) by (intros Q; exact (nodup_app_no _ _ N2 k Q Hn)).
    rewrite Ha in H. apply dget_not_in in H. rewrite E in H. apply dget_not_in in H. apply H. apply in_map_iff. exists (k, v). split; [reflexivity|]. apply in_or_app. right. left. reflexivity. }
  rewrite F1, F2, app_nil_r in *. symmetry. apply eqd_same; [exact N1|symmetry; exact Ha|exact E].
Qed.

(** ** Documents *)
Lemma dset_swap V a b (v w : V) d : a <> b -> dget a d <> None -> dget b d <> None -> dset a v (dset b w d) = dset b w (dset a v d).
Proof.
  intros Hab. induction d as [|[x y] d IH]; intros Ha Hb; [cbn in Ha; congruence|]. cbn in *. destruct (str_eqb b x) eqn:Eb; destruct (str_eqb a x) eqn:Ea; cbn; rewrite ?Ea, ?Eb.
  - apply str_eqb_spec in Ea, Eb. congruence.
  - reflexivity.
  - reflexivity.
  - rewrite IH by assumption. reflexivity.
Qed.
Lemma with_again d tree data t r t2 r2 : document d tree data -> with_doc (dset k_data (Jobj r) (dset k_tree (Jlist t) d)) t2 r2 = with_doc d t2 r2.
Proof.
  intros [H1 H2]. unfold with_doc. f_equal. change fe_tree with k_tree in H1. change fe_data with k_data in H2.
  rewrite (@dset_swap _ k_tree k_data); [rewrite dset_dset|discriminate|rewrite dget_dset_same; discriminate|rewrite dget_dset_other by discriminate; rewrite H2; discriminate].
  rewrite dset_dset. reflexivity.
Qed.
(** what a built form is split into: what the form was split into *)
Lemma split_again fuel d tree data files kept read doc : document d tree data -> nd data -> unpack_docs fuel (Jobj d) = Ok files -> dget fe_root files = Some kept ->
  pack_docs fuel read kept = Ok doc -> same_document (Jobj d) doc -> distinct_data doc -> unpack_docs fuel doc = Ok files.
Proof.
  intros Hd Hn Hu Hk Hp (da & db & Ea & Eb & _ & Hs1 & Hs2) Hdd. injection Ea as <-. unfold unpack_docs in Hu. destruct (unpack_elems fuel (Jobj d)) as [[doc1 areas]|] eqn:Eu; [|discriminate]. cbn [bind] in Hu. injection Hu as <-.
  change fe_root with w_root in Hk. rewrite dget_dset_same in Hk. injection Hk as <-.
  unfold unpack_elems in Eu. rewrite (doc_of_ok Hd) in Eu. cbn [bind] in Eu. apply bind_trip in Eu. destruct Eu as (tree' & root' & ar & H & E). injection E as <- <-. apply wrap_ok in H.
  unfold pack_docs, pack_elems in Hp. unfold with_doc at 1 in Hp. rewrite (doc_of_ok (doc_with d tree' root')) in Hp. cbn [wrap_ext bind] in Hp. apply bind_pair in Hp. destruct Hp as (t2 & q & Hp & E). apply wrap_ok in Hp. injection E as <-.
  rewrite (with_again _ _ _ _ Hd) in *. unfold with_doc in Eb. injection Eb as <-.
  assert (t2 = tree) as ->. { specialize (Hs1 k_tree ltac:(discriminate)). destruct Hd as [D1 _]. change fe_tree with k_tree in D1. rewrite D1, dget_dset_other, dget_dset_same in Hs1 by discriminate. congruence. }
  destruct (Hs2 data (proj2 Hd)) as (y & Ey & Hy). change fe_data with k_data in Ey. rewrite dget_dset_same in Ey. injection Ey as <-.
  assert (Nq : nd q) by (apply (Hdd (dset k_data (Jobj q) (dset k_tree (Jlist tree) d)) q eq_refl); change fe_data with k_data; apply dget_dset_same).
  destruct (@get_sim fuel _ _ _ _ _ _ _ _ Hn Nq Hy H) as (q' & G & (A1 & A2 & A3 & A4)). assert (q' = root') as -> by (exact (@left_same root' q q' A2 Nq (areas_grow _ _ _ _ _ Hp) A4 A1)).
  unfold unpack_docs, unpack_elems, with_doc. rewrite (doc_of_ok (doc_with d tree q)). cbn [bind]. rewrite G. cbn [wrap_ext bind]. fold (with_doc (dset k_data (Jobj q) (dset k_tree (Jlist tree) d)) tree' root'). rewrite (with_again _ _ _ _ Hd). reflexivity.
Qed.
