(** Proofs for the whole way: what was extracted, organized and assembled reads as the folders that were extracted. *)
From Coq Require Import String Permutation Lia.
From Verif Require Import PyBase PyText Paths Utf Brace JsonText JsonTextProofs JsonObj Pipeline ObjCode Payload MetaObj EncodeLoop Types Include Tree Spec_Tree Real Spec_Real
  Spec_Code OrgForm Spec_OrgForm OrgTree Spec_OrgTree OrgTreePaths OrgTreeProofs OrgTreeElems Spec_Again RealSame Form Spec_EndToEnd Classes MetaObj.
Set Implicit Arguments.
Open Scope list_scope.
Open Scope N_scope.

Lemma dirs_app a b : dirs (a ++ b) = dirs a ++ dirs b.
Proof. apply flat_map_app. Qed.
Lemma dirs_inj : forall a b, dirs a = dirs b -> a = b.
Proof.
  induction a as [|[t n] a IH]; intros [|[t' n'] b] H; try reflexivity; try discriminate. cbn in H. injection H as -> -> H. f_equal. apply IH. exact H.
Qed.
Lemma dirs_nil a : dirs a = [] -> a = [].
Proof. intros H. apply dirs_inj. exact H. Qed.
(** a file below an object folder belongs to that object or to one below it *)
Lemma dirs_prefix : forall a b rest x, rest <> [] -> dirs a ++ rest = dirs b ++ [x] -> exists r, b = a ++ r.
Proof.
  induction a as [|[t n] a IH]; intros b rest x Hr H; [exists b; reflexivity|].
  destruct b as [|[t' n'] b]; cbn in H.
  - injection H as _ H. destruct (dirs a); [destruct rest|]; discriminate.
  - injection H as -> -> H. destruct (IH b rest x Hr H) as (r & ->). exists r. reflexivity.
Qed.
Lemma snoc_inj {A} (a b : list A) x y : a ++ [x] = b ++ [y] -> a = b /\ x = y. Proof. apply app_inj_tail. Qed.

(** the folders of objects: with an object its parents *)
Lemma it_folders_nonempty : forall x p, In p (it_folders x) -> p <> [].
Proof. intros [c u n b l ks] p H. cbn in H. destruct H as [<-|H]; [discriminate|]. apply in_map_iff in H. destruct H as (q & <- & _). discriminate. Qed.
Lemma it_folders_closed : forall x a r, a <> [] -> In (a ++ r) (it_folders x) -> In a (it_folders x).
Proof.
  fix IH 1. intros [c u n b l ks] a r Ha H. destruct a as [|t a]; [contradiction|]. cbn [it_folders app] in *.
  destruct H as [H|H]; [injection H as <- H; apply eq_sym, app_eq_nil in H; destruct H as [-> _]; left; reflexivity|].
  apply in_map_iff in H. destruct H as (q & E & H). injection E as <- ->.
  destruct a as [|t' a]; [left; reflexivity|]. right. apply in_map. revert H. clear Ha.
  induction ks as [|k ks IHk]; cbn [flat_map]; [intros []|]. intros H. apply in_or_app. apply in_app_or in H. destruct H as [H|H]; [left|right; exact (IHk H)].
  apply (IH k (t' :: a) r); [discriminate|exact H].
Qed.
Lemma folders_closed xs a r : a <> [] -> In (a ++ r) (flat_map it_folders xs) -> In a (flat_map it_folders xs).
Proof. intros Ha H. apply in_flat_map in H. destruct H as (x & Hx & H). apply in_flat_map. exists x. split; [exact Hx|eapply it_folders_closed; eassumption]. Qed.

Lemma elements_dec n : {elements_name n} + {~ elements_name n}.
Proof. unfold elements_name. destruct (ends s_bsl n); [right; intros [H _]; discriminate|]. destruct (ends s_elem n); [left|right; intros [_ H]; discriminate]. split; reflexivity. Qed.
Lemma in_fst {A B} (l : list (A * B)) a b : In (a, b) l -> In a (map fst l).
Proof. intros H. apply in_map_iff. exists (a, b). split; [reflexivity|exact H]. Qed.
Lemma fst_in {A B} (l : list (A * B)) a : In a (map fst l) -> exists b, In (a, b) l.
Proof. intros H. apply in_map_iff in H. destruct H as ([a' b] & E & H). cbn in E. subst. exists b. exact H. Qed.
Lemma fst_unique {A B} (l : list (A * B)) a b c : NoDup (map fst l) -> In (a, b) l -> In (a, c) l -> b = c.
Proof.
  induction l as [|[k v] l IH]; cbn; [intros _ []|]. intros Hn Hb Hc. inversion Hn as [|? ? H1 H2]; subst.
  destruct Hb as [Hb|Hb]; destruct Hc as [Hc|Hc].
  - congruence.
  - injection Hb as -> ->. exfalso. apply H1. exact (in_fst _ _ _ Hc).
  - injection Hc as -> ->. exfalso. apply H1. exact (in_fst _ _ _ Hb).
  - exact (IH H2 Hb Hc).
Qed.

Section Read.
Variable auto : bool.
Variables own : folder.
Variable ss : sources folder.
Variable src : list (list N * tree).
Variables dest2 : list N.
Variable sf : disk.
Notation D2 := (enter [] dest2).
Hypothesis Hlay : laid_out own ss src.
Hypothesis Hplain : plain_folders auto ss.
Hypothesis Hnd : NoDup (map fst ss).
Hypothesis Hne : forall q fo, In (q, fo) ss -> q <> [].
Hypothesis Hclosed : forall a r, a <> [] -> In (a ++ r) (map fst ss) -> In a (map fst ss).
Hypothesis Hdocs : forall p n b, found src p n b -> elements_name n -> exists d, json_file b (Jobj d) /\ NoDup (map fst d) /\ distinct_data (Jobj d).
Hypothesis Hback : forall p n b, found src p n b -> exists b', dget (written (D2 ++ p ++ [n])) sf = Some b' /\ restored n b b'.
Hypothesis Honly : forall g, within D2 g -> Forall (fun e => ~ In 47 e) g -> dget (written g) sf <> None -> exists p n b, found src p n b /\ g = D2 ++ p ++ [n].

Lemma only_below rest : rest <> [] -> Forall fit_name rest -> dget (written (D2 ++ rest)) sf <> None -> exists p n b, found src p n b /\ rest = p ++ [n].
Proof.
  intros Hr Hf Hd. destruct (@Honly (D2 ++ rest)) as (p & n & b & H1 & H2).
  - exists rest. split; [exact Hr|reflexivity].
  - apply Forall_app. split; [apply good_nice, dest_nice|]. revert Hf. apply Forall_impl. intros a Ha. apply Ha.
  - exact Hd.
  - exists p, n, b. split; [exact H1|]. apply app_inv_head in H2. exact H2.
Qed.
(** the files in the folder of an object, or of the root: nothing that was not there *)
Lemma read_file p fo' n t : files_in D2 sf p fo' -> Forall fit_name p -> dget n fo' = Some t -> exists b, found src p n b.
Proof.
  intros Hfi Hp Hn. apply Hfi in Hn. destruct Hn as (F & b & -> & Hb). destruct (@only_below (p ++ [n])) as (p0 & n0 & b0 & H1 & H2).
  - destruct p; discriminate.
  - apply Forall_app. split; [exact Hp|constructor; [exact F|constructor]].
  - rewrite Hb. discriminate.
  - apply snoc_inj in H2. destruct H2 as [<- <-]. exists b0. exact H1.
Qed.
Lemma read_plain p (a fo' : folder) t n b : files_in D2 sf p fo' -> found src p n b -> ~ elements_name n -> dget n a = Some (TFile b) -> marks_in_modules t a -> same_file t n a fo'.
Proof.
  intros Hfi Hf He Ha Hm. destruct (found_fits Hf (proj1 Hlay)) as [_ Fn]. destruct (Hback Hf) as (b' & B1 & B2 & B3 & _).
  assert (Hr : dget n fo' = Some (TFile b')) by (apply Hfi; split; [exact Fn|]; exists b'; split; [reflexivity|exact B1]). clear B1.
  destruct (ends s_bsl n) eqn:E.
  - destruct (B3 E) as [-> B4]. destruct (Hm _ _ Ha E) as [Hn|Hn]; [right; split; [exact Hn|exists b; auto]|left; rewrite Ha, Hr, Hn; reflexivity].
  - left. assert (Hother : other_name n) by (split; [exact E|]; destruct (ends s_elem n) eqn:E2; [exfalso; apply He; split; assumption|reflexivity]). rewrite (B2 Hother) in Hr. congruence.
Qed.
Lemma read_elems p fo' n b : files_in D2 sf p fo' -> found src p n b -> elements_name n -> same_elements (Some (TFile b)) (dget n fo').
Proof.
  intros Hfi Hf He. destruct (found_fits Hf (proj1 Hlay)) as [_ Fn]. destruct (Hback Hf) as (b' & B1 & _ & _ & B2). destruct (B2 He) as (j & doc & J1 & J2 & J3 & J4).
  destruct (Hdocs Hf He) as (d & D1 & Dn & Dd). assert (j = Jobj d) as -> by (destruct J1 as (t1 & E1 & E2); destruct D1 as (t2 & E3 & E4); rewrite E1 in E3; injection E3 as <-; rewrite E2 in E4; injection E4 as ->; reflexivity).
  pose proof J3 as (da & db & _ & Edb & _). subst doc.
  exists b, b', d, db. split; [reflexivity|]. split; [apply Hfi; split; [exact Fn|]; exists b'; split; [reflexivity|exact B1]|]. tauto.
Qed.
(** the files of the root *)
Lemma read_root t0 srcs : files_in D2 sf [] srcs -> (forall n t, dget n own = Some t -> ~ elements_name n /\ exists b, t = TFile b) -> marks_in_modules t0 own -> same_files t0 own srcs.
Proof.
  intros Hfi Ho Hm n. destruct (dget n own) as [t|] eqn:E.
  - destruct (Ho _ _ E) as (He & b & ->). apply (@read_plain [] own srcs t0 n b Hfi); [|exact He|exact E|exact Hm]. apply (proj2 Hlay). left. split; [reflexivity|exact E].
  - left. rewrite E. destruct (dget n srcs) as [t|] eqn:E2; [|reflexivity]. exfalso. destruct (read_file _ Hfi (Forall_nil _) E2) as (b & Hf). apply (proj2 Hlay) in Hf. destruct Hf as [(_ & H)|(q & fo & Hq & Hd & _)]; [congruence|].
    apply (Hne _ Hq). apply dirs_nil. symmetry. exact Hd.
Qed.
Lemma fits_dirs q fo : In (q, fo) ss -> Forall fit_name (dirs q) /\ exists n b, dget n fo = Some (TFile b) /\ found src (dirs q) n b.
Proof.
  intros Hq. destruct (Hplain _ _ Hq) as ((n & b & E) & _). assert (Hf : found src (dirs q) n b) by (apply (proj2 Hlay); right; exists q, fo; split; [exact Hq|split; [reflexivity|exact E]]).
  split; [exact (proj1 (found_fits Hf (proj1 Hlay)))|]. exists n, b. split; assumption.
Qed.
Lemma found_in q fo n b : In (q, fo) ss -> found src (dirs q) n b -> dget n fo = Some (TFile b).
Proof.
  intros Hq Hf. apply (proj2 Hlay) in Hf. destruct Hf as [(Hd & _)|(q2 & fo2 & H1 & H2 & H3)]; [exfalso; exact (Hne _ Hq (dirs_nil _ Hd))|].
  apply dirs_inj in H2. subst q2. rewrite (@fst_unique _ _ ss q fo fo2 Hnd Hq H1). exact H3.
Qed.
Lemma in_found q fo n b : In (q, fo) ss -> dget n fo = Some (TFile b) -> found src (dirs q) n b.
Proof. intros Hq E. apply (proj2 Hlay). right. exists q, fo. split; [exact Hq|split; [reflexivity|exact E]]. Qed.
Lemma read_again q a fo' : In (q, a) ss -> files_in D2 sf (dirs q) fo' -> again auto (type_at [] q) a fo'.
Proof.
  intros Hq Hfi. destruct (Hplain _ _ Hq) as (_ & Hfile & Hmk & Hel). destruct (fits_dirs _ _ Hq) as (Hp & _).
  assert (No : forall n, dget n a = None -> dget n fo' = None).
  { intros n E. destruct (dget n fo') as [t|] eqn:E2; [|reflexivity]. exfalso. destruct (read_file _ Hfi Hp E2) as (b & Hf). rewrite (@found_in q a n b Hq Hf) in E. discriminate. }
  assert (Nn : forall n, dget n a = None -> same_file (type_at [] q) n a fo') by (intros n E; left; rewrite E; exact (No n E)).
  assert (Pl : forall n, ~ elements_name n -> same_file (type_at [] q) n a fo').
  { intros n He. destruct (dget n a) as [t|] eqn:E; [|exact (Nn n E)]. destruct (Hfile _ _ E) as (b & ->). exact (read_plain Hfi (@in_found q a _ _ Hq E) He E Hmk). }
  destruct (dget (dotted (type_at [] q) (u "elem.json"%string)) a) as [t|] eqn:Ea.
  - destruct (elements_dec (dotted (type_at [] q) (u "elem.json"%string))) as [He|He].
    + destruct (Hel _ He ltac:(rewrite Ea; discriminate)) as (F1 & _ & F2). right. split; [exact F1|]. split; [exact F2|]. split.
      * intros n Hn. destruct (elements_dec n) as [Hen|Hen]; [|exact (Pl n Hen)]. destruct (dget n a) as [t'|] eqn:E; [|exact (Nn n E)]. exfalso. apply Hn. apply Hel; [exact Hen|rewrite E; discriminate].
      * rewrite Ea. destruct (Hfile _ _ Ea) as (b & ->). apply (read_elems Hfi (@in_found q a _ _ Hq Ea) He).
    + left. intros n. destruct (elements_dec n) as [Hen|Hen]; [|exact (Pl n Hen)]. destruct (dget n a) as [t'|] eqn:E; [|exact (Nn n E)]. exfalso. apply He. destruct (Hel n Hen ltac:(rewrite E; discriminate)) as (_ & <- & _). exact Hen.
  - left. intros n. destruct (elements_dec n) as [Hen|Hen]; [|exact (Pl n Hen)]. destruct (dget n a) as [t'|] eqn:E; [|exact (Nn n E)]. exfalso. destruct (Hel n Hen ltac:(rewrite E; discriminate)) as (_ & -> & _). congruence.
Qed.
Lemma folders_again ss' : object_folders D2 sf ss' -> read_back (again auto) [] ss ss'.
Proof.
  intros [Ho Hfi]. split.
  - intros q fo' Hq. destruct (proj1 (Ho q) (ex_intro _ fo' Hq)) as (Hn & rest & R1 & R2 & R3).
    destruct (@only_below (dirs q ++ rest)) as (p & n & b & F1 & F2); [intros E; apply app_eq_nil in E; destruct E; contradiction|exact R2|exact R3|].
    assert (Hin : In q (map fst ss)).
    { apply (proj2 Hlay) in F1. destruct F1 as [(-> & _)|(q2 & fo2 & Q1 & -> & _)].
      - exfalso. destruct q as [|[t m] q]; [contradiction|]. cbn in F2. injection F2 as _ F2. discriminate.
      - destruct (@dirs_prefix q q2 rest n R1 F2) as (r & ->). apply (@Hclosed q r Hn), (@in_fst _ _ ss _ _ Q1). }
    apply fst_in in Hin. destruct Hin as (a & Ha). exists a. split; [exact Ha|]. exact (@read_again q a fo' Ha (Hfi _ _ Hq)).
  - intros q a Ha. apply Ho. split; [exact (Hne _ Ha)|]. destruct (fits_dirs _ _ Ha) as (Hp & n & b & _ & Hf). destruct (Hback Hf) as (b' & B & _). exists [n]. split; [discriminate|].
    split; [apply Forall_app; split; [exact Hp|constructor; [exact (proj2 (found_fits Hf (proj1 Hlay)))|constructor]]|]. rewrite B. discriminate.
Qed.
End Read.
