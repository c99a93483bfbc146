(** What is taken out of a form and put back can be written and read. *)
From Coq Require Import String Permutation Lia.
From Verif Require Import PyBase PyText Utf JsonText JsonObj UpdateDictProofs MetaObjBase FormJsonGood OrgForm OrgFormProofs Spec_OrgForm OrgFormMain OrgFormDocs.
Set Implicit Arguments.
Open Scope list_scope.
Open Scope N_scope.

Notation sc := (Forall scalar).
Definition gd (d : jd) : Prop := Forall (fun e : list N * jval => sc (fst e) /\ jgood (snd e)) d.
Lemma gd_of d : jgood (Jobj d) -> gd d.
Proof. induction d as [|[k x] d IH]; intros H; [constructor|]. apply jgood_obj in H. destruct H as (A & B & C). constructor; [split; assumption|exact (IH C)]. Qed.
Lemma gl_of l : jgood (Jlist l) -> Forall jgood l.
Proof. induction l as [|x l IH]; intros H; [constructor|]. apply jgood_list in H. destruct H as [A B]. constructor; [exact A|exact (IH B)]. Qed.
Lemma gd_get k v d : gd d -> dget k d = Some v -> jgood v.
Proof. intros H E. apply dget_in in E. unfold gd in H. rewrite Forall_forall in H. exact (proj2 (H _ E)). Qed.
Lemma gd_set k v d : gd d -> sc k -> jgood v -> gd (dset k v d).
Proof. induction 1 as [|[x y] d [A B] Hd IH]; intros Hk Hv; cbn [dset]; [constructor; [split; assumption|constructor]|]. destruct (str_eqb k x); constructor; [split; assumption|exact Hd|split; assumption|apply IH; assumption]. Qed.
Lemma gd_del k d : gd d -> gd (ddel k d).
Proof. induction 1 as [|[x y] d [A B] Hd IH]; cbn [ddel]; [constructor|]. destruct (str_eqb k x); [exact Hd|]. constructor; [split; assumption|exact IH]. Qed.
Lemma scb s : forallb scalarb s = true -> sc s.
Proof. intros H. apply Forall_forall. intros c Hc. rewrite forallb_forall in H. specialize (H c Hc). unfold scalarb in H. apply andb_prop in H. destruct H as [A B]. split; [apply N.ltb_lt; exact A|]. destruct (is_surrogate c); [discriminate|reflexivity]. Qed.
Lemma sc_app a b : sc a -> sc b -> sc (a ++ b). Proof. intros A B. apply Forall_app. split; assumption. Qed.
Lemma sc_skip n s : sc s -> sc (skipn n s).
Proof. intros H. rewrite <- (firstn_skipn n s) in H. apply Forall_app in H. exact (proj2 H). Qed.
Lemma sc_join l : Forall sc l -> sc (join [47] l).
Proof. induction 1 as [|x l H _ IH]; [constructor|]. cbn [join]. destruct l; [exact H|]. apply sc_app; [exact H|]. apply sc_app; [apply scb; reflexivity|exact IH]. Qed.
Lemma sc_old page path name : sc page -> sc path -> sc name -> sc (old_path page path name).
Proof. intros A B C. unfold old_path. apply sc_join. cbn [filter]. destruct (negb (length path =? 0)%nat), (negb (length page =? 0)%nat), (negb (length name =? 0)%nat); repeat constructor; assumption. Qed.
Lemma sc_cut remove p : sc p -> sc (cut remove p).
Proof. intros H. unfold cut. destruct remove; [exact H|]. apply sc_skip. exact H. Qed.
Lemma sc_full a p : sc a -> sc p -> sc (full a p).
Proof. intros A B. unfold full. destruct a as [|x a]; [exact B|]. apply sc_app; [exact A|]. apply sc_app; [apply scb; reflexivity|exact B]. Qed.
Lemma sc_pages : sc w_pages. Proof. apply scb. vm_compute. reflexivity. Qed.
Lemma sc_slash : sc [47]. Proof. apply scb. reflexivity. Qed.
Lemma good_str s : jgood (Jstr s) -> sc s.
Proof. intros [_ H]. inversion H; assumption. Qed.
Lemma fields_good j e : fields j = Ok e -> jgood j -> gd e.
Proof. destruct j; try discriminate. cbn. intros E. injection E as <-. apply gd_of. Qed.
Lemma name_good e n : name_of e = Ok n -> gd e -> sc n.
Proof. unfold name_of. intros H Hg. destruct (dget k_name e) as [[]|] eqn:E; try discriminate. injection H as <-. apply good_str. exact (gd_get _ Hg E). Qed.
Lemma page_good e n : page_of e = Ok n -> gd e -> sc n.
Proof. unfold page_of. intros H Hg. destruct (dget k_page e) as [[|[|]|s|s|[|]|[|]]|] eqn:E; try discriminate; injection H as <-; try (constructor; fail). apply good_str. exact (gd_get _ Hg E). Qed.
Lemma items_good o l : items o = Ok l -> (forall j, o = Some j -> jgood j) -> Forall jgood l.
Proof. unfold items. intros H Hg. destruct o as [[|[|]|s|[|]|l0|[|]]|]; try discriminate; injection H as <-; try (constructor; fail). apply gl_of, Hg. reflexivity. Qed.
Lemma pages_good l ns : page_names l = Ok ns -> Forall jgood l -> Forall sc ns.
Proof. revert ns. induction l as [|x l IH]; intros ns H Hg; [injection H as <-; constructor|]. inversion Hg as [|? ? A B]; subst. destruct x; try discriminate. cbn [page_names] in H. destruct (page_names l) as [m|]; [|discriminate]. injection H as <-. constructor; [apply good_str; exact A|apply IH; [reflexivity|exact B]]. Qed.

Lemma pop_pages_good remove path names : sc path -> Forall sc names -> forall root data r d, gd root -> gd data -> pop_pages remove path names root data = (r, d) -> gd r /\ gd d.
Proof.
  intros Hp. induction 1 as [|n names Hn _ IH]; intros root data r d Hr Hd H; cbn [pop_pages] in H; [injection H as <- <-; split; assumption|].
  destruct (dget (path ++ [47] ++ n) root) as [v|] eqn:E; [|exact (IH _ _ _ _ Hr Hd H)]. refine (IH _ _ _ _ _ _ H); [apply gd_del; exact Hr|]. apply gd_set; [exact Hd| |exact (gd_get _ Hr E)]. apply sc_app; [apply sc_cut; exact Hp|apply sc_app; [apply sc_slash|exact Hn]].
Qed.
Lemma pop_panel_good remove path root data r d : sc path -> gd root -> gd data -> pop_panel remove path root data = Ok (r, d) -> gd r /\ gd d.
Proof.
  intros Hp Hr Hd H. unfold pop_panel in H. destruct (dget (path ++ w_pages) root) as [j|] eqn:E; [|injection H as <- <-; split; assumption]. pose proof (gd_get _ Hr E) as Hj. destruct j; try discriminate.
  - injection H as <- <-. split; [apply gd_del; exact Hr|exact Hd].
  - destruct (page_names l) as [ns|] eqn:En; [|discriminate]. cbn [bind] in H. injection H as H. refine (pop_pages_good _ Hp (pages_good En (gl_of Hj)) _ _ H); [apply gd_del; exact Hr|]. apply gd_set; [exact Hd|apply sc_app; [apply sc_cut; exact Hp|apply sc_pages]|exact Hj].
Qed.
Lemma pop_area_good remove fuel : forall tree path root data r d, Forall jgood tree -> sc path -> gd root -> gd data -> pop_area fuel remove tree path root data = Ok (r, d) -> gd r /\ gd d.
Proof.
  induction fuel as [|fuel IH]; [discriminate|]. intros tree path root data r d Ht Hp Hr Hd H. rewrite pop_area_S in H. apply bind_pair in H. destruct H as (r1 & d1 & H1 & H2).
  assert (G : gd r1 /\ gd d1).
  { clear H2 r d. revert root data r1 d1 Hr Hd H1. induction Ht as [|j rest Hj _ IHr]; intros root data r1 d1 Hr Hd H; cbn [pop_go] in H; [injection H as <- <-; split; assumption|].
    destruct (fields j) as [e|] eqn:Ee; [|discriminate]. cbn [bind] in H. pose proof (fields_good Ee Hj) as He. destruct (name_of e) as [nm|] eqn:En; [|discriminate]. cbn [bind] in H. destruct (page_of e) as [pg|] eqn:Eg; [|discriminate]. cbn [bind] in H.
    pose proof (sc_old (page_good Eg He) Hp (name_good En He)) as Ho. set (old := old_path pg path nm) in *. destruct (dget old root) as [v|] eqn:Ev; [|discriminate]. destruct (items (dget k_child e)) as [c|] eqn:Ec; [|discriminate]. cbn [bind] in H.
    assert (Hc : Forall jgood c) by (apply (items_good Ec); intros x Hx; exact (gd_get _ He Hx)). assert (Gr : gd (ddel old root)) by (apply gd_del; exact Hr). assert (Gd : gd (dset (cut remove old) v data)) by (apply gd_set; [exact Hd|apply sc_cut; exact Ho|exact (gd_get _ Hr Ev)]).
    apply bind_pair in H. destruct H as (r2 & d2 & H2 & H). assert (gd r2 /\ gd d2) as [G1 G2]. { destruct c as [|c0 c]; [injection H2 as <- <-; split; assumption|]. exact (IH _ _ _ _ _ _ Hc Ho Gr Gd H2). }
    exact (IHr _ _ _ _ G1 G2 H). }
  destruct G as [G1 G2]. exact (pop_panel_good _ Hp G1 G2 H2).
Qed.
Definition area_good (na : list N * area) : Prop := sc (fst na) /\ gd (a_data (snd na)) /\ jgood (a_tree (snd na)).
Lemma areas_set k a l : Forall area_good l -> area_good (k, a) -> Forall area_good (dset k a l).
Proof. induction 1 as [|[x y] l A Hl IH]; intros Ha; cbn [dset]; [constructor; [exact Ha|constructor]|]. destruct (str_eqb k x) eqn:E; constructor; [apply str_eqb_spec in E; subst; exact Ha|exact Hl|exact A|exact (IH Ha)]. Qed.
Lemma get_areas_good fuel : forall tree path root areas t r a, Forall jgood tree -> sc path -> gd root -> Forall area_good areas -> get_areas fuel tree path root areas = Ok (t, r, a) ->
  Forall jgood t /\ gd r /\ Forall area_good a.
Proof.
  induction fuel as [|fuel IH]; [discriminate|]. intros tree path root areas t r a Ht Hp Hr Ha H. rewrite get_areas_S in H. revert root areas t r a Hr Ha H.
  induction Ht as [|j rest Hj _ IHr]; intros root areas t r a Hr Ha H; cbn [get_go] in H; [injection H as <- <- <-; split; [constructor|split; assumption]|].
  destruct (fields j) as [e|] eqn:Ee; [|discriminate]. cbn [bind] in H. pose proof (fields_good Ee Hj) as He. destruct (name_of e) as [nm|] eqn:En; [|discriminate]. cbn [bind] in H. destruct (page_of e) as [pg|] eqn:Eg; [|discriminate]. cbn [bind] in H.
  pose proof (page_good Eg He) as Gp. pose proof (name_good En He) as Gn. apply bind_trip in H. destruct H as (j' & r1 & a1 & H1 & H).
  assert (jgood j' /\ gd r1 /\ Forall area_good a1) as (G1 & G2 & G3).
  { destruct (is_area nm) as [w|].
    - set (tt := match dget k_child e with Some t0 => t0 | None => Jlist [] end) in *. assert (Gt : jgood tt) by (unfold tt; destruct (dget k_child e) eqn:Ec; [exact (gd_get _ He Ec)|split; [reflexivity|constructor]]).
      destruct (items (Some tt)) as [l|] eqn:El; [|discriminate]. cbn [bind] in H1. apply bind_pair in H1. destruct H1 as (r2 & d2 & H1 & E). injection E as <- <- <-.
      destruct (@pop_area_good _ _ _ _ _ _ _ _ (items_good El ltac:(intros x Hx; injection Hx as <-; exact Gt)) (sc_old Gp Hp (sc_app (scb w_include eq_refl) (sc_skip 8 Gn))) Hr (Forall_nil _) H1) as [Q1 Q2].
      split; [apply jgood_obj_of; apply gd_set; [apply gd_del; exact He|apply scb; reflexivity|apply jgood_str, scb; vm_compute; reflexivity]|]. split; [exact Q1|]. destruct w; [|exact Ha]. apply areas_set; [exact Ha|]. split; [exact (sc_skip 8 Gn)|split; [exact Q2|exact Gt]].
    - destruct (items (dget k_child e)) as [c|] eqn:Ec; [|discriminate]. cbn [bind] in H1. assert (Hc : Forall jgood c) by (apply (items_good Ec); intros x Hx; exact (gd_get _ He Hx)).
      destruct c as [|c0 c]; [injection H1 as <- <- <-; split; [exact Hj|split; assumption]|]. apply bind_trip in H1. destruct H1 as (c' & r2 & a2 & H1 & E). injection E as <- <- <-.
      destruct (IH _ _ _ _ _ _ _ Hc (sc_old Gp Hp Gn) Hr Ha H1) as (Q1 & Q2 & Q3). split; [|split; assumption]. apply jgood_obj_of. apply gd_set; [exact He|apply scb; reflexivity|apply jgood_list_of; exact Q1]. }
  apply bind_trip in H. destruct H as (rest' & r2 & a2 & H2 & E). injection E as <- <- <-. destruct (IHr _ _ _ _ _ G2 G3 H2) as (Q1 & Q2 & Q3). split; [constructor; assumption|split; assumption].
Qed.
Lemma doc_good j d tree data : doc_of j = Ok (d, tree, data) -> jgood j -> gd d /\ Forall jgood tree /\ gd data.
Proof.
  unfold doc_of. destruct j as [| | | | |d0]; try discriminate. intros H Hj. pose proof (gd_of Hj) as G. destruct (dget k_tree d0) as [[]|] eqn:E1; try discriminate. destruct (dget k_data d0) as [[]|] eqn:E2; try discriminate. injection H as <- <- <-.
  split; [exact G|]. split; [apply gl_of; exact (gd_get _ G E1)|apply gd_of; exact (gd_get _ G E2)].
Qed.
Lemma with_good d tree data : gd d -> Forall jgood tree -> gd data -> jgood (with_doc d tree data).
Proof. intros A B C. apply jgood_obj_of. apply gd_set; [apply gd_set; [exact A|apply scb; reflexivity|apply jgood_list_of; exact B]|apply scb; reflexivity|apply jgood_obj_of; exact C]. Qed.
Lemma unpack_docs_good fuel doc files : jgood doc -> unpack_docs fuel doc = Ok files -> Forall (fun nj : list N * jval => sc (fst nj) /\ jgood (snd nj)) files.
Proof.
  intros Hj H. unfold unpack_docs in H. apply bind_pair in H. destruct H as (doc' & areas & H & E). injection E as <-. unfold unpack_elems in H. apply bind_trip in H. destruct H as (d & tree & data & Ed & H). destruct (doc_good Ed Hj) as (A & B & C).
  apply bind_trip in H. destruct H as (t & r & a & H & E). injection E as <- <-. apply wrap_ok in H. destruct (@get_areas_good _ _ _ _ _ _ _ _ B (Forall_nil _) C (Forall_nil _) H) as (Q1 & Q2 & Q3).
  change (gd (dset w_root (with_doc d t r) (map (fun na : list N * area => (fst na, area_json (snd na))) a))). apply gd_set; [|apply scb; reflexivity|apply with_good; assumption].
  clear H. induction Q3 as [|[n ar] a (S1 & S2 & S3) _ IH]; cbn [map]; [constructor|]. constructor; [|exact IH]. split; [exact S1|]. apply jgood_obj_of. constructor; [split; [apply scb; reflexivity|apply jgood_obj_of; exact S2]|]. constructor; [split; [apply scb; reflexivity|exact S3]|constructor].
Qed.

(** ** Build *)
Lemma put_pages_good append path _path names : sc append -> sc _path -> Forall sc names -> forall root data r d, gd root -> gd data -> put_pages append path _path names root data = (r, d) -> gd r /\ gd d.
Proof.
  intros Ha Hp. induction 1 as [|n names Hn _ IH]; intros root data r d Hr Hd H; cbn [put_pages] in H; [injection H as <- <-; split; assumption|].
  destruct (dget (path ++ [47] ++ n) data) as [v|] eqn:E; [|exact (IH _ _ _ _ Hr Hd H)]. refine (IH _ _ _ _ _ _ H); [|apply gd_del; exact Hd]. apply gd_set; [exact Hr| |exact (gd_get _ Hd E)]. apply sc_full; [exact Ha|]. apply sc_app; [exact Hp|apply sc_app; [apply sc_slash|exact Hn]].
Qed.
Lemma put_panel_good append path _path root data r d : sc append -> sc _path -> gd root -> gd data -> put_panel append path _path root data = Ok (r, d) -> gd r /\ gd d.
Proof.
  intros Ha Hp Hr Hd H. unfold put_panel in H. destruct (dget (path ++ w_pages) data) as [j|] eqn:E; [|injection H as <- <-; split; assumption]. pose proof (gd_get _ Hd E) as Hj. destruct j; try discriminate.
  - injection H as <- <-. split; [exact Hr|apply gd_del; exact Hd].
  - destruct (page_names l) as [ns|] eqn:En; [|discriminate]. cbn [bind] in H. injection H as H. refine (put_pages_good path Ha Hp (pages_good En (gl_of Hj)) _ _ H); [|apply gd_del; exact Hd]. apply gd_set; [exact Hr|apply sc_full; [exact Ha|apply sc_app; [exact Hp|apply sc_pages]]|exact Hj].
Qed.
Lemma put_area_good append fuel : sc append -> forall ro tree path root data r d, Forall jgood tree -> sc path -> gd root -> gd data -> put_area fuel append ro tree path root data = Ok (r, d) -> gd r /\ gd d.
Proof.
  intros Hap. induction fuel as [|fuel IH]; [discriminate|]. intros ro tree path root data r d Ht Hp Hr Hd H. cbn [put_area] in H. set (_path := if ro then w_include ++ skipn 8 path else path) in *.
  assert (Hq : sc _path) by (unfold _path; destruct ro; [apply sc_app; [apply scb; reflexivity|apply sc_skip; exact Hp]|exact Hp]).
  apply bind_pair in H. destruct H as (r1 & d1 & H1 & H2).
  assert (G : gd r1 /\ gd d1).
  { clear H2 r d. revert root data r1 d1 Hr Hd H1. induction Ht as [|j rest Hj _ IHr]; intros root data r1 d1 Hr Hd H; [injection H as <- <-; split; assumption|]. cbn beta iota in H.
    destruct (fields j) as [e|] eqn:Ee; [|discriminate]. cbn [bind] in H. pose proof (fields_good Ee Hj) as He. destruct (name_of e) as [nm|] eqn:En; [|discriminate]. cbn [bind] in H. destruct (page_of e) as [pg|] eqn:Eg; [|discriminate]. cbn [bind] in H. cbv zeta in H.
    pose proof (sc_old (page_good Eg He) Hq (name_good En He)) as Ho. set (old := old_path pg _path nm) in *. destruct (dget old data) as [v|] eqn:Ev; [|discriminate]. destruct (items (dget k_child e)) as [c|] eqn:Ec; [|discriminate]. cbn [bind] in H.
    assert (Hc : Forall jgood c) by (apply (items_good Ec); intros x Hx; exact (gd_get _ He Hx)). assert (Gr : gd (ddel old data)) by (apply gd_del; exact Hd). assert (Gd : gd (dset (full append old) v root)) by (apply gd_set; [exact Hr|apply sc_full; assumption|exact (gd_get _ Hd Ev)]).
    apply bind_pair in H. destruct H as (r2 & d2 & H2 & H). assert (gd r2 /\ gd d2) as [G1 G2]. { destruct c as [|c0 c]; [injection H2 as <- <-; split; assumption|]. exact (IH _ _ _ _ _ _ _ Hc Ho Gd Gr H2). }
    exact (IHr _ _ _ _ G1 G2 H). }
  destruct G as [G1 G2]. exact (put_panel_good _ Hap Hq G1 G2 H2).
Qed.
Lemma put_areas_good read fuel : (forall n a, read n = Ok a -> gd (a_data a) /\ jgood (a_tree a)) -> forall tree path root t r, Forall jgood tree -> sc path -> gd root -> put_areas fuel read tree path root = Ok (t, r) -> Forall jgood t /\ gd r.
Proof.
  intros Hread. induction fuel as [|fuel IH]; [discriminate|]. intros tree path root t r Ht Hp Hr H. rewrite put_areas_S in H. revert root t r Hr H.
  induction Ht as [|j rest Hj _ IHr]; intros root t r Hr H; cbn [putx_go] in H; [injection H as <- <-; split; [constructor|assumption]|].
  destruct (fields j) as [e|] eqn:Ee; [|discriminate]. cbn [bind] in H. pose proof (fields_good Ee Hj) as He. destruct (name_of e) as [nm|] eqn:En; [|discriminate]. cbn [bind] in H. destruct (page_of e) as [pg|] eqn:Eg; [|discriminate]. cbn [bind] in H.
  pose proof (page_good Eg He) as Gp. pose proof (name_good En He) as Gn. apply bind_pair in H. destruct H as (j' & r1 & H1 & H).
  assert (jgood j' /\ gd r1) as (G1 & G2).
  { destruct (is_area nm) as [w|].
    - destruct (read (skipn 8 nm)) as [a|] eqn:Er; [|discriminate]. cbn [bind] in H1. destruct (Hread _ _ Er) as [Ga Gt]. destruct (items (Some (a_tree a))) as [l|] eqn:El; [|discriminate]. cbn [bind] in H1. apply bind_pair in H1. destruct H1 as (r2 & d2 & H1 & E). injection E as <- <-.
      destruct (@put_area_good _ _ (sc_old Gp Hp (Forall_nil _)) _ _ _ _ _ _ _ (items_good El ltac:(intros x Hx; injection Hx as <-; exact Gt)) Gn Hr Ga H1) as [Q1 _].
      split; [|exact Q1]. apply jgood_obj_of. apply gd_set; [exact He|apply scb; reflexivity|exact Gt].
    - destruct (items (dget k_child e)) as [c|] eqn:Ec; [|discriminate]. cbn [bind] in H1. assert (Hc : Forall jgood c) by (apply (items_good Ec); intros x Hx; exact (gd_get _ He Hx)).
      destruct c as [|c0 c]; [injection H1 as <- <-; split; assumption|]. apply bind_pair in H1. destruct H1 as (c' & r2 & H1 & E). injection E as <- <-.
      destruct (IH _ _ _ _ _ Hc (sc_old Gp Hp Gn) Hr H1) as (Q1 & Q2). split; [|assumption]. apply jgood_obj_of. apply gd_set; [exact He|apply scb; reflexivity|apply jgood_list_of; exact Q1]. }
  apply bind_pair in H. destruct H as (rest' & r2 & H2 & E). injection E as <- <-. destruct (IHr _ _ _ G2 H2) as (Q1 & Q2). split; [constructor; assumption|assumption].
Qed.
Lemma pack_docs_good fuel read doc j : (forall n x, read n = Ok x -> jgood x) -> jgood doc -> pack_docs fuel read doc = Ok j -> jgood j.
Proof.
  intros Hread Hg H. unfold pack_docs, pack_elems in H. apply bind_trip in H. destruct H as (d & tree & data & Ed & H). apply wrap_ok in Ed. destruct (doc_good Ed Hg) as (A & B & C).
  apply bind_pair in H. destruct H as (t & r & H & E). injection E as <-. apply wrap_ok in H. destruct (@put_areas_good (fun n => x <- read n ;; area_of x) fuel) with (4 := C) (5 := H) as [Q1 Q2]; [|exact B|constructor|apply with_good; assumption].
  intros n a Ha. destruct (read n) as [x|] eqn:Er; [|discriminate]. cbn [bind] in Ha. pose proof (Hread _ _ Er) as Gx. destruct x as [| | | | |d0]; try discriminate. apply gd_of in Gx. unfold area_of in Ha.
  destruct (dget k_tree d0) as [t0|] eqn:E1; [|discriminate]. destruct (dget k_data d0) as [[]|] eqn:E2; try discriminate. injection Ha as <-. split; [apply gd_of; exact (gd_get _ Gx E2)|exact (gd_get _ Gx E1)].
Qed.

(** ** The data of an area have every key once *)
Definition nd (d : jd) : Prop := NoDup (map fst d).
Lemma nd_set k v d : nd d -> nd (dset k v d).
Proof. unfold nd. apply OrgFormProofs.nodup_dset. Qed.
Lemma pop_pages_nd remove path names : forall root data r d, nd data -> pop_pages remove path names root data = (r, d) -> nd d.
Proof. induction names as [|n names IH]; intros root data r d Hd H; cbn [pop_pages] in H; [injection H as <- <-; exact Hd|]. destruct (dget (path ++ [47] ++ n) root); [|exact (IH _ _ _ _ Hd H)]. refine (IH _ _ _ _ _ H). apply nd_set. exact Hd. Qed.
Lemma pop_panel_nd remove path root data r d : nd data -> pop_panel remove path root data = Ok (r, d) -> nd d.
Proof.
  intros Hd H. unfold pop_panel in H. destruct (dget (path ++ w_pages) root) as [j|]; [|injection H as <- <-; exact Hd]. destruct j; try discriminate; [injection H as <- <-; exact Hd|].
  destruct (page_names l); [|discriminate]. cbn [bind] in H. injection H as H. refine (pop_pages_nd _ _ _ _ _ H). apply nd_set. exact Hd.
Qed.
Lemma pop_area_nd remove fuel : forall tree path root data r d, nd data -> pop_area fuel remove tree path root data = Ok (r, d) -> nd d.
Proof.
  induction fuel as [|fuel IH]; [discriminate|]. intros tree path root data r d Hd H. rewrite pop_area_S in H. apply bind_pair in H. destruct H as (r1 & d1 & H1 & H2).
  refine (pop_panel_nd _ _ _ _ H2). clear H2 r d. revert root data r1 d1 Hd H1. induction tree as [|j rest IHr]; intros root data r1 d1 Hd H; cbn [pop_go] in H; [injection H as <- <-; exact Hd|].
  destruct (fields j) as [e|]; [|discriminate]. cbn [bind] in H. destruct (name_of e) as [nm|]; [|discriminate]. cbn [bind] in H. destruct (page_of e) as [pg|]; [|discriminate]. cbn [bind] in H.
  set (old := old_path pg path nm) in *. destruct (dget old root) as [v|]; [|discriminate]. destruct (items (dget k_child e)) as [c|]; [|discriminate]. cbn [bind] in H. pose proof (nd_set (cut remove old) v Hd) as Gd.
  apply bind_pair in H. destruct H as (r2 & d2 & H2 & H). refine (IHr _ _ _ _ _ H). destruct c as [|c0 c]; [injection H2 as <- <-; exact Gd|]. exact (IH _ _ _ _ _ _ Gd H2).
Qed.
Definition area_nd (na : list N * area) : Prop := nd (a_data (snd na)).
Lemma areas_set_nd k a l : Forall area_nd l -> nd (a_data a) -> Forall area_nd (dset k a l).
Proof. induction 1 as [|[x y] l A Hl IH]; intros Ha; cbn [dset]; [constructor; [exact Ha|constructor]|]. destruct (str_eqb k x) eqn:E; constructor; [exact Ha|exact Hl|exact A|exact (IH Ha)]. Qed.
Lemma get_areas_nd fuel : forall tree path root areas t r a, Forall area_nd areas -> get_areas fuel tree path root areas = Ok (t, r, a) -> Forall area_nd a.
Proof.
  induction fuel as [|fuel IH]; [discriminate|]. intros tree path root areas t r a Ha H. rewrite get_areas_S in H. revert root areas t r a Ha H.
  induction tree as [|j rest IHr]; intros root areas t r a Ha H; cbn [get_go] in H; [injection H as <- <- <-; exact Ha|].
  destruct (fields j) as [e|]; [|discriminate]. cbn [bind] in H. destruct (name_of e) as [nm|]; [|discriminate]. cbn [bind] in H. destruct (page_of e) as [pg|]; [|discriminate]. cbn [bind] in H.
  apply bind_trip in H. destruct H as (j' & r1 & a1 & H1 & H). assert (Forall area_nd a1) as G.
  { destruct (is_area nm) as [w|].
    - destruct (items _) as [l|]; [|discriminate]. cbn [bind] in H1. apply bind_pair in H1. destruct H1 as (r2 & d2 & H1 & E). injection E as <- <- <-. destruct w; [|exact Ha]. apply areas_set_nd; [exact Ha|]. refine (pop_area_nd _ _ _ _ _ _ H1). constructor.
    - destruct (items (dget k_child e)) as [c|]; [|discriminate]. cbn [bind] in H1. destruct c as [|c0 c]; [injection H1 as <- <- <-; exact Ha|]. apply bind_trip in H1. destruct H1 as (c' & r2 & a2 & H1 & E). injection E as <- <- <-. exact (IH _ _ _ _ _ _ _ Ha H1). }
  apply bind_trip in H. destruct H as (rest' & r2 & a2 & H2 & E). injection E as <- <- <-. exact (IHr _ _ _ _ _ G H2).
Qed.
(** the file of an area is a dictionary with such data *)
Lemma unpack_docs_nd fuel doc files : unpack_docs fuel doc = Ok files -> forall x j, x <> w_root -> In (x, j) files -> exists a, j = area_json a /\ nd (a_data a).
Proof.
  intros H. unfold unpack_docs in H. apply bind_pair in H. destruct H as (doc' & areas & H & E). injection E as <-. unfold unpack_elems in H. apply bind_trip in H. destruct H as (d & tree & data & Ed & H).
  apply bind_trip in H. destruct H as (t & r & a & H & E). injection E as <- <-. apply wrap_ok in H. pose proof (@get_areas_nd _ _ _ _ _ _ _ _ (Forall_nil _) H) as Q. rewrite Forall_forall in Q.
  intros x j Hx Hi. apply in_dset in Hi. destruct Hi as [Hi|Hi]; [injection Hi as -> _; congruence|]. apply in_map_iff in Hi. destruct Hi as ([x' b] & E & Hi). injection E as <- <-. exists b. split; [reflexivity|]. exact (Q _ Hi).
Qed.
