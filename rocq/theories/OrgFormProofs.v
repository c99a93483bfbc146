(** Taking the data of an area out of a form and putting them back (OrgForm.v). *)
From Coq Require Import String Permutation Lia.
From Verif Require Import PyBase PyText JsonText UpdateDictProofs OrgForm.
Set Implicit Arguments.
Open Scope list_scope.
Open Scope N_scope.

(** ** Dictionaries *)
Definition eqd (a b : jd) : Prop := forall k, dget k a = dget k b.
Lemma dget_app V k (a b : list (list N * V)) : dget k (a ++ b) = match dget k a with Some v => Some v | None => dget k b end.
Proof. induction a as [|[x v] a IH]; [reflexivity|]. cbn. destruct (str_eqb k x); [reflexivity|exact IH]. Qed.
Lemma dget_not_in V k (d : list (list N * V)) : ~ In k (map fst d) <-> dget k d = None.
Proof.
  induction d as [|[x v] d IH]; cbn; [tauto|]. destruct (str_eqb k x) eqn:E.
  - apply str_eqb_spec in E. subst. split; [intros H; exfalso; apply H; left; reflexivity|discriminate].
  - rewrite <- IH. split; [tauto|]. intros H [Q|Q]; [subst; rewrite str_eqb_refl in E; discriminate|contradiction].
Qed.
Lemma dget_ddel V k x (d : list (list N * V)) : NoDup (map fst d) -> dget k (ddel x d) = if str_eqb k x then None else dget k d.
Proof.
  induction d as [|[y v] d IH]; intros Hn; cbn; [destruct (str_eqb k x); reflexivity|]. inversion Hn as [|? ? H1 H2]; subst.
  destruct (str_eqb x y) eqn:E.
  - apply str_eqb_spec in E. subst y. destruct (str_eqb k x) eqn:E2; [|reflexivity]. apply str_eqb_spec in E2. subst k. apply dget_not_in. exact H1.
  - cbn. rewrite IH by exact H2. destruct (str_eqb k y) eqn:E2; [|reflexivity]. apply str_eqb_spec in E2. subst y. destruct (str_eqb k x) eqn:E3; [|reflexivity].
    apply str_eqb_spec in E3. subst x. rewrite str_eqb_refl in E. discriminate.
Qed.
Lemma ddel_keys V x (d : list (list N * V)) k : In k (map fst (ddel x d)) -> In k (map fst d).
Proof. induction d as [|[y v] d IH]; cbn; [tauto|]. destruct (str_eqb x y); cbn; [tauto|]. intros [H|H]; [left; exact H|right; apply IH; exact H]. Qed.
Lemma nodup_ddel V x (d : list (list N * V)) : NoDup (map fst d) -> NoDup (map fst (ddel x d)).
Proof.
  induction d as [|[y v] d IH]; intros H; cbn; [constructor|]. inversion H as [|? ? H1 H2]; subst. destruct (str_eqb x y); [exact H2|]. cbn. constructor; [|apply IH; exact H2].
  intros Q. apply H1. eapply ddel_keys. exact Q.
Qed.
Lemma dget_dset V k x v (d : list (list N * V)) : dget k (dset x v d) = if str_eqb k x then Some v else dget k d.
Proof.
  destruct (str_eqb k x) eqn:E; [apply str_eqb_spec in E; subst; apply dget_dset_same|]. apply dget_dset_other. intros ->. rewrite str_eqb_refl in E. discriminate.
Qed.
Lemma nodup_dset V x v (d : list (list N * V)) : NoDup (map fst d) -> NoDup (map fst (dset x v d)).
Proof.
  induction d as [|[y w] d IH]; intros H; cbn; [constructor; [intros []|constructor]|]. inversion H as [|? ? H1 H2]; subst. destruct (str_eqb x y) eqn:E; cbn; [exact H|]. constructor; [|apply IH; exact H2].
  clear IH H2 H. intros Q. apply H1. clear H1. induction d as [|[z t] d IH]; cbn in *.
  - destruct Q as [->|[]]. rewrite str_eqb_refl in E. discriminate.
  - destruct (str_eqb x z); cbn in Q; [exact Q|]. destruct Q as [Q|Q]; [left; exact Q|right; apply IH; exact Q].
Qed.
Lemma in_dget V k v (d : list (list N * V)) : NoDup (map fst d) -> In (k, v) d -> dget k d = Some v.
Proof.
  induction d as [|[x w] d IH]; intros Hn Hi; [destruct Hi|]. inversion Hn as [|? ? H1 H2]; subst. destruct Hi as [E|Hi].
  - injection E as -> ->. cbn. rewrite str_eqb_refl. reflexivity.
  - cbn. destruct (str_eqb k x) eqn:E; [|apply IH; assumption]. apply str_eqb_spec in E. subst x. exfalso. apply H1. apply in_map_iff. exists (k, v). split; [reflexivity|exact Hi].
Qed.
Lemma dget_in V k v (d : list (list N * V)) : dget k d = Some v -> In (k, v) d.
Proof.
  induction d as [|[x w] d IH]; cbn; [discriminate|]. destruct (str_eqb k x) eqn:E; intros H; [|right; apply IH; exact H]. apply str_eqb_spec in E. left. congruence.
Qed.
Lemma dget_key V k v (d : list (list N * V)) : dget k d = Some v -> In k (map fst d).
Proof. intros H. apply dget_in in H. apply in_map_iff. exists (k, v). split; [reflexivity|exact H]. Qed.

(** ** Paths *)
Lemma cut_full rp c : cut rp (full rp c) = c.
Proof. destruct rp as [|x rp]; [reflexivity|]. unfold cut, full. cbn [length app skipn]. induction rp as [|y rp IH]; [reflexivity|]. cbn [length app skipn]. exact IH. Qed.
Lemma full_inj rp a b : full rp a = full rp b -> a = b.
Proof. intros H. apply (f_equal (cut rp)) in H. rewrite !cut_full in H. exact H. Qed.
Lemma full_app rp c t : full rp c ++ t = full rp (c ++ t).
Proof. destruct rp; [reflexivity|]. unfold full. rewrite <- !app_assoc. reflexivity. Qed.
Lemma filter_full rp cp : cp <> [] -> negb (length (full rp cp) =? 0)%nat = true.
Proof. intros H. destruct rp; [destruct cp; [congruence|reflexivity]|]. reflexivity. Qed.
Lemma full_old rp cp page name : cp <> [] -> old_path page (full rp cp) name = full rp (old_path page cp name).
Proof.
  intros H. unfold old_path. cbn [filter]. rewrite (filter_full rp H).
  replace (negb (length cp =? 0)%nat) with true by (destruct cp; [congruence|reflexivity]).
  destruct (negb (length page =? 0)%nat), (negb (length name =? 0)%nat); cbn [join]; rewrite ?full_app; reflexivity.
Qed.
Lemma old_starts cp page name : cp <> [] -> exists t, old_path page cp name = cp ++ t.
Proof.
  intros H. unfold old_path. cbn [filter]. replace (negb (length cp =? 0)%nat) with true by (destruct cp; [congruence|reflexivity]).
  destruct (negb (length page =? 0)%nat), (negb (length name =? 0)%nat); cbn [join]; try (eexists; reflexivity). exists []. rewrite app_nil_r. reflexivity.
Qed.
Lemma app_nonnil A (a b : list A) : a <> [] -> a ++ b <> [].
Proof. destruct a; [congruence|discriminate]. Qed.

Section Area.
Variable rp : list N.
(** [l]: what was taken out of [root] *)
Definition fl (l : jd) : jd := map (fun e => (full rp (fst e), snd e)) l.
Lemma dget_fl l c : dget (full rp c) (fl l) = dget c l.
Proof.
  induction l as [|[x v] l IH]; [reflexivity|]. cbn [fl map fst snd dget]. fold (fl l). rewrite IH.
  replace (str_eqb (full rp c) (full rp x)) with (str_eqb c x); [reflexivity|]. destruct (str_eqb c x) eqn:E.
  - apply str_eqb_spec in E. subst. rewrite str_eqb_refl. reflexivity.
  - symmetry. destruct (str_eqb (full rp c) (full rp x)) eqn:E2; [|reflexivity]. apply str_eqb_spec in E2. apply full_inj in E2. subst. rewrite str_eqb_refl in E. discriminate.
Qed.
Lemma fl_app a b : fl (a ++ b) = fl a ++ fl b. Proof. apply map_app. Qed.
Definition taken (root l root' : jd) : Prop :=
  NoDup (map fst root) /\ NoDup (map fst root') /\ NoDup (map fst l) /\ (forall c v, In (c, v) l -> dget (full rp c) root = Some v) /\
  (forall k, dget k root' = match dget k (fl l) with Some _ => None | None => dget k root end).
Lemma taken_nil root : NoDup (map fst root) -> taken root [] root.
Proof. intros H. split; [exact H|]. split; [exact H|]. split; [constructor|]. split; [intros c v []|]. intros k. reflexivity. Qed.
Lemma taken_one root c v : NoDup (map fst root) -> dget (full rp c) root = Some v -> taken root [(c, v)] (ddel (full rp c) root).
Proof.
  intros H1 H2. split; [exact H1|]. split; [apply nodup_ddel; exact H1|]. split; [constructor; [intros []|constructor]|]. split.
  - intros c' v' [E|[]]. injection E as <- <-. exact H2.
  - intros k. rewrite dget_ddel by exact H1. cbn. destruct (str_eqb k (full rp c)); reflexivity.
Qed.
Lemma nodup_app_intro A (a b : list A) : NoDup a -> NoDup b -> (forall x, In x a -> ~ In x b) -> NoDup (a ++ b).
Proof.
  induction a as [|x a IH]; intros Ha Hb Hd; [exact Hb|]. inversion Ha as [|? ? H1 H2]; subst. cbn. constructor.
  - intros Hi. apply in_app_or in Hi. destruct Hi as [Hi|Hi]; [contradiction|]. exact (Hd x (or_introl eq_refl) Hi).
  - apply IH; [exact H2|exact Hb|]. intros y Hy. apply Hd. right. exact Hy.
Qed.
Lemma taken_app root l root1 l2 root2 : taken root l root1 -> taken root1 l2 root2 -> taken root (l ++ l2) root2.
Proof.
  intros (A1 & A2 & A3 & A4 & A5) (B1 & B2 & B3 & B4 & B5). split; [exact A1|]. split; [exact B2|]. split; [|split].
  - rewrite map_app. apply nodup_app_intro; [exact A3|exact B3|]. intros c Hc Hc2. apply in_map_iff in Hc, Hc2. destruct Hc as ([c1 v1] & <- & Hc), Hc2 as ([c2 v2] & E & Hc2). cbn in E. subst c2.
    specialize (B4 _ _ Hc2). rewrite A5, dget_fl, (in_dget _ _ _ A3 Hc) in B4. discriminate.
  - intros c v Hi. apply in_app_or in Hi. destruct Hi as [Hi|Hi]; [apply A4; exact Hi|]. specialize (B4 _ _ Hi). rewrite A5 in B4. destruct (dget (full rp c) (fl l)); [discriminate|exact B4].
  - intros k. rewrite B5, A5, fl_app, dget_app. destruct (dget k (fl l)) as [x|], (dget k (fl l2)) as [y|]; reflexivity.
Qed.
Definition added (data l data' : jd) : Prop := forall c, dget c data' = match dget c l with Some v => Some v | None => dget c data end.
Lemma added_nil data : added data [] data. Proof. intros c. reflexivity. Qed.
Lemma added_one data c v : added data [(c, v)] (dset c v data).
Proof. intros k. rewrite dget_dset. cbn. destruct (str_eqb k c); reflexivity. Qed.
Lemma added_app data l data1 l2 data2 : NoDup (map fst (l ++ l2)) -> added data l data1 -> added data1 l2 data2 -> added data (l ++ l2) data2.
Proof.
  intros Hn H1 H2 c. rewrite H2, H1, dget_app. destruct (dget c l2) as [v|] eqn:E; [|destruct (dget c l); reflexivity]. destruct (dget c l) as [w|] eqn:E1; [|reflexivity].
  exfalso. rewrite map_app in Hn. apply dget_key in E, E1. revert Hn E E1. generalize (map fst l), (map fst l2). clear. induction l as [|x l IH]; intros l2 Hn Hi2 Hi1; [destruct Hi1|]. cbn in Hn. inversion Hn as [|? ? H1 H2]; subst.
  destruct Hi1 as [->|Hi1]; [apply H1; apply in_or_app; right; exact Hi2|exact (IH l2 H2 Hi2 Hi1)].
Qed.
(** the same put into another dictionary under the full paths *)
Definition put_in (q l q' : jd) : Prop := (NoDup (map fst q) -> NoDup (map fst q')) /\ forall k, dget k q' = match dget k (fl l) with Some v => Some v | None => dget k q end.
Lemma put_nil q : put_in q [] q. Proof. split; [tauto|intros k; reflexivity]. Qed.
Lemma put_one q c v : put_in q [(c, v)] (dset (full rp c) v q).
Proof. split; [apply nodup_dset|]. intros k. rewrite dget_dset. cbn. destruct (str_eqb k (full rp c)); reflexivity. Qed.
Lemma fl_nodup l : NoDup (map fst l) -> NoDup (map fst (fl l)).
Proof.
  unfold fl. rewrite map_map. cbn [fst]. induction l as [|[c v] l IH]; intros H; [constructor|]. inversion H as [|? ? H1 H2]; subst. cbn. constructor; [|apply IH; exact H2].
  intros Q. apply in_map_iff in Q. destruct Q as ([c2 v2] & E & Q). cbn in E. apply full_inj in E. subst. apply H1. apply in_map_iff. exists (c, v2). split; [reflexivity|exact Q].
Qed.
Lemma put_app q l q1 l2 q2 : NoDup (map fst (l ++ l2)) -> put_in q l q1 -> put_in q1 l2 q2 -> put_in q (l ++ l2) q2.
Proof.
  intros Hn [N1 H1] [N2 H2]. split; [intros H; apply N2, N1, H|]. intros k. rewrite H2, H1, fl_app, dget_app.
  destruct (dget k (fl l2)) as [v|] eqn:E; [|destruct (dget k (fl l)); reflexivity]. destruct (dget k (fl l)) as [w|] eqn:E1; [|reflexivity]. exfalso.
  apply fl_nodup in Hn. rewrite fl_app, map_app in Hn. apply dget_key in E, E1. revert Hn E E1. generalize (map fst (fl l)), (map fst (fl l2)). clear. induction l as [|x l IH]; intros l2 Hn Hi2 Hi1; [destruct Hi1|]. cbn in Hn. inversion Hn as [|? ? H1 H2]; subst.
  destruct Hi1 as [->|Hi1]; [apply H1; apply in_or_app; right; exact Hi2|exact (IH l2 H2 Hi2 Hi1)].
Qed.
Definition no_null (d : jd) : Prop := forall k, dget k d <> Some Jnull.
Lemma taken_null root l root' : taken root l root' -> no_null root -> no_null root'.
Proof. intros (_ & _ & _ & _ & H) Hn k. rewrite H. destruct (dget k (fl l)); [discriminate|apply Hn]. Qed.
(** what is put back later is still in the rest *)
Definition waits (later root' : jd) : Prop := forall c, In c (map fst later) -> dget (full rp c) root' <> None.
Lemma waits_app l later root root' : taken root l root' -> waits later root' -> waits (l ++ later) root.
Proof.
  intros (_ & _ & _ & H4 & H5) Hw c Hc. rewrite map_app in Hc. apply in_app_or in Hc. destruct Hc as [Hc|Hc].
  - apply in_map_iff in Hc. destruct Hc as ([c' v] & <- & Hc). cbn. rewrite (H4 _ _ Hc). discriminate.
  - specialize (Hw c Hc). rewrite H5 in Hw. destruct (dget (full rp c) (fl l)); [congruence|exact Hw].
Qed.

(** one pop and the put that answers it *)
Definition answered (P : jd -> jd -> res (jd * jd)) (l later : jd) : Prop :=
  forall q d, NoDup (map fst d) -> eqd d (l ++ later) -> exists q' d', P q d = Ok (q', d') /\ put_in q l q' /\ eqd d' later /\ NoDup (map fst d').
Lemma eqd_step c v later d : NoDup (map fst d) -> NoDup (map fst ((c, v) :: later)) -> eqd d ((c, v) :: later) -> dget c d = Some v /\ eqd (ddel c d) later /\ NoDup (map fst (ddel c d)).
Proof.
  intros Hd Hl H. split; [rewrite H; cbn; rewrite str_eqb_refl; reflexivity|]. split; [|apply nodup_ddel; exact Hd].
  intros k. rewrite dget_ddel by exact Hd. inversion Hl as [|? ? H1 H2]; subst. destruct (str_eqb k c) eqn:E.
  - apply str_eqb_spec in E. subst. symmetry. apply dget_not_in. exact H1.
  - rewrite H. cbn. rewrite E. reflexivity.
Qed.
Lemma nodup_later l later root root' : taken root l root' -> waits later root' -> NoDup (map fst later) -> NoDup (map fst (l ++ later)).
Proof.
  intros (_ & _ & H3 & _ & H5) Hw Hn. rewrite map_app. apply nodup_app_intro; [exact H3|exact Hn|]. intros c Hc Hc2. apply (Hw c Hc2). rewrite H5, dget_fl.
  destruct (dget c l) eqn:E; [reflexivity|]. apply dget_not_in in E. contradiction.
Qed.

(** *** Pages *)
Definition on_path (cp : list N) (l : jd) : Prop := Forall (fun e => exists t, fst e = cp ++ t) l.
Lemma pages_back cp names : forall root data root' data', NoDup (map fst root) -> pop_pages rp (full rp cp) names root data = (root', data') ->
  exists l, taken root l root' /\ added data l data' /\ on_path cp l /\
    forall later, waits later root' -> NoDup (map fst later) -> answered (fun q d => Ok (put_pages rp cp cp names q d)) l later.
Proof.
  induction names as [|n names IH]; intros root data root' data' Hn H; cbn [pop_pages] in H.
  - injection H as <- <-. exists []. split; [apply taken_nil; exact Hn|]. split; [apply added_nil|]. split; [constructor|]. intros later _ _ q d Hd He. exists q, d. split; [reflexivity|]. split; [apply put_nil|]. split; assumption.
  - rewrite full_app in H. destruct (dget (full rp (cp ++ [47] ++ n)) root) as [v|] eqn:E.
    + rewrite cut_full in H. destruct (IH _ _ _ _ (nodup_ddel _ _ Hn) H) as (l & T & A & O & B). pose proof (taken_app (@taken_one _ _ _ Hn E) T) as T2. exists ([(cp ++ [47] ++ n, v)] ++ l).
      split; [exact T2|]. assert (Hnd : NoDup (map fst ([(cp ++ [47] ++ n, v)] ++ l))) by apply T2.
      split; [eapply added_app; [exact Hnd|apply added_one|exact A]|]. split; [constructor; [eexists; reflexivity|exact O]|].
      intros later Hw Hln q d Hd He. pose proof (nodup_later T2 Hw Hln) as Hall. cbn [app] in Hall, He.
      destruct (eqd_step Hd Hall He) as (D1 & D2 & D3). destruct (B later Hw Hln (dset (full rp (cp ++ [47] ++ n)) v q) (ddel (cp ++ [47] ++ n) d) D3 D2) as (q' & d' & P & P1 & P2 & P3).
      exists q', d'. cbn [put_pages]. cbn [app]. rewrite D1. split; [exact P|]. split; [|split; assumption]. exact (put_app Hnd (put_one _ _ _) P1).
    + destruct (IH _ _ _ _ Hn H) as (l & T & A & O & B). exists l. split; [exact T|]. split; [exact A|]. split; [exact O|]. intros later Hw Hln q d Hd He.
      destruct (B later Hw Hln q d Hd He) as (q' & d' & P & P1). exists q', d'. split; [|exact P1]. cbn [put_pages].
      assert (dget (cp ++ [47] ++ n) d = None) as ->; [|exact P]. rewrite He. apply dget_not_in. intros Hi. pose proof (waits_app T Hw _ Hi) as Q. congruence.
Qed.
Lemma panel_back cp root data root' data' : NoDup (map fst root) -> no_null root -> pop_panel rp (full rp cp) root data = Ok (root', data') ->
  exists l, taken root l root' /\ added data l data' /\ on_path cp l /\
    forall later, waits later root' -> NoDup (map fst later) -> answered (put_panel rp cp cp) l later.
Proof.
  intros Hn Hnn H. unfold pop_panel in H. rewrite full_app in H. destruct (dget (full rp (cp ++ w_pages)) root) as [v|] eqn:E.
  - destruct v as [| | | |pl|]; try discriminate; [exfalso; exact (Hnn _ E)|]. destruct (page_names pl) as [names|] eqn:Ep; [|discriminate]. cbn [bind] in H.
    destruct (pop_pages rp (full rp cp) names _ _) as [r1 d1] eqn:Eg. injection H as <- <-. rewrite cut_full in Eg. destruct (@pages_back cp names _ _ _ _ (nodup_ddel _ _ Hn) Eg) as (l & T & A & O & B).
    pose proof (taken_app (@taken_one _ _ _ Hn E) T) as T2. exists ([(cp ++ w_pages, Jlist pl)] ++ l). split; [exact T2|]. assert (Hnd : NoDup (map fst ([(cp ++ w_pages, Jlist pl)] ++ l))) by apply T2.
    split; [eapply added_app; [exact Hnd|apply added_one|exact A]|]. split; [constructor; [eexists; reflexivity|exact O]|].
    intros later Hw Hln q d Hd He. pose proof (nodup_later T2 Hw Hln) as Hall. cbn [app] in Hall, He. destruct (eqd_step Hd Hall He) as (D1 & D2 & D3).
    destruct (B later Hw Hln (dset (full rp (cp ++ w_pages)) (Jlist pl) q) (ddel (cp ++ w_pages) d) D3 D2) as (q' & d' & P & P1 & P2 & P3).
    exists q', d'. unfold put_panel. rewrite D1, Ep. cbn [bind]. split; [exact P|]. split; [|split; assumption]. exact (put_app Hnd (put_one _ _ _) P1).
  - injection H as <- <-. exists []. split; [apply taken_nil; exact Hn|]. split; [apply added_nil|]. split; [constructor|]. intros later Hw Hln q d Hd He. exists q, d. unfold put_panel.
    assert (dget (cp ++ w_pages) d = None) as ->; [|split; [reflexivity|]; split; [apply put_nil|]; split; assumption]. rewrite He. apply dget_not_in. intros Hi. exact (Hw _ Hi E).
Qed.

(** *** Elements *)
Lemma answered_app P1 P2 l1 l2 later : NoDup (map fst (l1 ++ l2)) -> answered P1 l1 (l2 ++ later) -> answered P2 l2 later ->
  answered (fun q d => ' (q, d) <- P1 q d ;; P2 q d) (l1 ++ l2) later.
Proof.
  intros Hn H1 H2 q d Hd He. rewrite <- app_assoc in He. destruct (H1 q d Hd He) as (q1 & d1 & E1 & A1 & A2 & A3). destruct (H2 q1 d1 A3 A2) as (q2 & d2 & E2 & B1 & B2 & B3).
  exists q2, d2. rewrite E1. cbn [bind]. split; [exact E2|]. split; [eapply put_app; eassumption|split; assumption].
Qed.
Definition pop_go (rec : list jval -> list N -> jd -> jd -> res (jd * jd)) (path : list N) : list jval -> jd -> jd -> res (jd * jd) :=
  fix go (tree : list jval) (root data : jd) : res (jd * jd) :=
         match tree with
         | [] => Ok (root, data)
         | j :: rest =>
           e <- fields j ;; name <- name_of e ;; page <- page_of e ;;
           let old := old_path page path name in
           match dget old root with
           | None => Err ExtExc
           | Some v =>
             c <- items (dget k_child e) ;;
             ' (root, data) <- match c with
                               | [] => Ok (ddel old root, dset (cut rp old) v data)
                               | _ => rec c old (ddel old root) (dset (cut rp old) v data)
                               end ;;
             go rest root data
           end
         end.
Lemma pop_area_S fuel tree path root data : pop_area (S fuel) rp tree path root data = (' (root, data) <- pop_go (pop_area fuel rp) path tree root data ;; pop_panel rp path root data).
Proof. reflexivity. Qed.
Definition put_go (rec : list jval -> list N -> jd -> jd -> res (jd * jd)) (path : list N) : list jval -> jd -> jd -> res (jd * jd) :=
  fix go (tree : list jval) (root data : jd) : res (jd * jd) :=
         match tree with
         | [] => Ok (root, data)
         | j :: rest =>
           e <- fields j ;; name <- name_of e ;; page <- page_of e ;;
           let old := old_path page path name in
           match dget old data with
           | None => Err ExtExc
           | Some v =>
             c <- items (dget k_child e) ;;
             ' (root, data) <- match c with
                               | [] => Ok (dset (full rp old) v root, ddel old data)
                               | _ => rec c old (dset (full rp old) v root) (ddel old data)
                               end ;;
             go rest root data
           end
         end.
Lemma put_area_S fuel ro tree path root data : put_area (S fuel) rp ro tree path root data =
  (' (root, data) <- put_go (put_area fuel rp false) (if ro then w_include ++ skipn 8 path else path) tree root data ;; put_panel rp path (if ro then w_include ++ skipn 8 path else path) root data).
Proof. reflexivity. Qed.
Definition restores (pop : list jval -> list N -> jd -> jd -> res (jd * jd)) (put : list jval -> list N -> jd -> jd -> res (jd * jd)) : Prop :=
  forall tree cp root data root' data', cp <> [] -> NoDup (map fst root) -> no_null root -> pop tree (full rp cp) root data = Ok (root', data') ->
  exists l, taken root l root' /\ added data l data' /\ on_path cp l /\
    forall later, waits later root' -> NoDup (map fst later) -> answered (put tree cp) l later.
Lemma on_path_app cp a b : on_path cp a -> on_path cp b -> on_path cp (a ++ b).
Proof. intros H1 H2. apply Forall_app. split; assumption. Qed.
Lemma on_path_below cp t l : on_path (cp ++ t) l -> on_path cp l.
Proof. apply Forall_impl. intros e (x & ->). rewrite <- app_assoc. eexists. reflexivity. Qed.
Lemma bind_pair A B C (r : res (A * B)) (k : A * B -> res C) v : (x <- r ;; k x) = Ok v -> exists a b, r = Ok (a, b) /\ k (a, b) = Ok v.
Proof. destruct r as [[a b]|]; [|discriminate]. intros H. exists a, b. split; [reflexivity|exact H]. Qed.
Lemma go_back pop put : restores pop put -> restores (fun tree path => pop_go pop path tree) (fun tree path => put_go put path tree).
Proof.
  intros Hrec tree. induction tree as [|j tree IH]; intros cp root data root' data' Hcp Hn Hnn H; cbn [pop_go] in H.
  - injection H as <- <-. exists []. split; [apply taken_nil; exact Hn|]. split; [apply added_nil|]. split; [constructor|]. intros later _ _ q d Hd He. exists q, d. split; [reflexivity|]. split; [apply put_nil|]. split; assumption.
  - destruct (fields j) as [e|] eqn:Ef; [|discriminate]. cbn [bind] in H. destruct (name_of e) as [name|] eqn:En; [|discriminate]. cbn [bind] in H. destruct (page_of e) as [page|] eqn:Ep; [|discriminate]. cbn [bind] in H.
    cbv zeta in H. rewrite (full_old rp page name Hcp) in H. rewrite cut_full in H. destruct (@old_starts cp page name Hcp) as (t & Ho). set (o := old_path page cp name) in *.
    assert (Hone : o <> []) by (rewrite Ho; apply app_nonnil; exact Hcp).
    destruct (dget (full rp o) root) as [v|] eqn:Ev; [|discriminate]. destruct (items (dget k_child e)) as [c|] eqn:Ec; [|discriminate]. cbn [bind] in H. apply bind_pair in H. destruct H as (r1 & d1 & H1 & H).
    pose proof (@taken_one _ _ _ Hn Ev) as T0.
    assert (Hl0 : exists l0, taken (ddel (full rp o) root) l0 r1 /\ added (dset o v data) l0 d1 /\ on_path cp l0 /\
      forall later, waits later r1 -> NoDup (map fst later) -> answered (match c with [] => fun q d => Ok (q, d) | _ => put c o end) l0 later).
    { destruct c as [|c0 c].
      - injection H1 as <- <-. exists []. split; [apply taken_nil; apply T0|]. split; [apply added_nil|]. split; [constructor|]. intros later _ _ q d Hd He. exists q, d. split; [reflexivity|]. split; [apply put_nil|]. split; assumption.
      - destruct (Hrec _ _ _ _ _ _ Hone (nodup_ddel _ _ Hn) (taken_null T0 Hnn) H1) as (l0 & A1 & A2 & A3 & A4). exists l0. split; [exact A1|]. split; [exact A2|]. split; [rewrite Ho in A3; eapply on_path_below; exact A3|exact A4]. }
    destruct Hl0 as (l0 & T1 & A1 & O1 & B1). pose proof (taken_app T0 T1) as T01.
    destruct (IH cp r1 d1 root' data' Hcp (proj1 (proj2 T1)) (taken_null T01 Hnn) H) as (l2 & T2 & A2 & O2 & B2).
    pose proof (taken_app T01 T2) as T. exists (([(o, v)] ++ l0) ++ l2). split; [exact T|].
    assert (N1 : NoDup (map fst ([(o, v)] ++ l0))) by apply T01. assert (N2 : NoDup (map fst (([(o, v)] ++ l0) ++ l2))) by apply T.
    split; [eapply added_app; [exact N2|eapply added_app; [exact N1|apply added_one|exact A1]|exact A2]|].
    split; [apply on_path_app; [constructor; [exists t; exact Ho|exact O1]|exact O2]|].
    intros later Hw Hln. pose proof (waits_app T2 Hw) as Hw2. pose proof (nodup_later T2 Hw Hln) as Hn2. specialize (B1 (l2 ++ later) Hw2 Hn2). specialize (B2 later Hw Hln).
    pose proof (nodup_later T01 Hw2 Hn2) as Hn3.
    assert (B0 : answered (fun q d => match dget o d with None => Err ExtExc | Some v => match c with [] => Ok (dset (full rp o) v q, ddel o d) | _ => put c o (dset (full rp o) v q) (ddel o d) end end) ([(o, v)] ++ l0) (l2 ++ later)).
    { intros q d Hd He. cbn [app] in He, Hn3. destruct (eqd_step Hd Hn3 He) as (D1 & D2 & D3). rewrite D1. destruct (B1 (dset (full rp o) v q) (ddel o d) D3 D2) as (q' & d' & E & P1 & P2).
      exists q', d'. split; [destruct c; exact E|]. split; [|exact P2]. exact (put_app N1 (put_one _ _ _) P1). }
    pose proof (answered_app N2 B0 B2) as B. intros q d Hd He. destruct (B q d Hd He) as (q' & d' & E & P). exists q', d'. split; [|exact P].
    cbn [put_go]. rewrite Ef. cbn [bind]. rewrite En. cbn [bind]. rewrite Ep. cbn [bind]. cbv zeta. fold o. destruct (dget o d); [|discriminate]. rewrite Ec. cbn [bind]. exact E.
Qed.
Lemma area_back fuel : restores (pop_area fuel rp) (put_area fuel rp false).
Proof.
  induction fuel as [|fuel IH]; intros tree cp root data root' data' Hcp Hn Hnn H; [discriminate|]. rewrite pop_area_S in H. apply bind_pair in H. destruct H as (r1 & d1 & H1 & H).
  destruct (go_back IH tree data Hcp Hn Hnn H1) as (l1 & T1 & A1 & O1 & B1).
  destruct (@panel_back cp r1 d1 root' data' (proj1 (proj2 T1)) (taken_null T1 Hnn) H) as (l2 & T2 & A2 & O2 & B2).
  pose proof (taken_app T1 T2) as T. assert (Hnd : NoDup (map fst (l1 ++ l2))) by apply T. exists (l1 ++ l2). split; [exact T|]. split; [eapply added_app; eassumption|]. split; [apply on_path_app; assumption|].
  intros later Hw Hln. pose proof (answered_app Hnd (B1 (l2 ++ later) (waits_app T2 Hw) (nodup_later T2 Hw Hln)) (B2 later Hw Hln)) as B. intros q d Hd He. destruct (B q d Hd He) as (q' & d' & E & P). exists q', d'. split; [|exact P].
  rewrite put_area_S. exact E.
Qed.
(** an area that is only read: no pages at its top *)
Lemma area_back_read fuel tree nm root data root' data' : let cp := w_include ++ skipn 8 nm in NoDup (map fst root) -> no_null root -> dget (full rp (cp ++ w_pages)) root = None ->
  pop_area fuel rp tree (full rp cp) root data = Ok (root', data') ->
  exists l, taken root l root' /\ added data l data' /\ on_path cp l /\ answered (put_area fuel rp true tree nm) l [].
Proof.
  intros cp Hn Hnn Hpages H. destruct fuel as [|fuel]; [discriminate|]. rewrite pop_area_S in H. apply bind_pair in H. destruct H as (r1 & d1 & H1 & H).
  assert (Hcp : cp <> []) by discriminate. destruct (go_back (@area_back fuel) tree data Hcp Hn Hnn H1) as (l1 & T1 & A1 & O1 & B1).
  assert (Hr1 : dget (full rp (cp ++ w_pages)) r1 = None). { destruct T1 as (_ & _ & _ & _ & T1). rewrite T1, Hpages. destruct (dget (full rp (cp ++ w_pages)) (fl l1)); reflexivity. }
  unfold pop_panel in H. rewrite full_app, Hr1 in H. injection H as <- <-. exists l1. split; [exact T1|]. split; [exact A1|]. split; [exact O1|].
  intros q d Hd He. destruct (B1 [] (fun c Hc => match Hc with end) (NoDup_nil _) q d Hd He) as (q' & d' & E & P1 & P2 & P3). exists q', d'. split; [|split; [exact P1|split; assumption]].
  rewrite put_area_S. cbv beta in E. fold cp. rewrite E. cbn [bind]. unfold put_panel. rewrite P2. reflexivity.
Qed.
End Area.
