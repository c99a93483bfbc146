(** Proofs for the whole way: on any disk a build finds a folder of the root, folders of objects and an order of them. *)
From Coq Require Import String Permutation Lia.
From Verif Require Import PyBase PyText Paths Utf Brace JsonText JsonObj Pipeline ObjCode Payload MetaObj EncodeLoop Types Include Tree Spec_Tree Real
  Spec_Code OrgCodeProofs OrgCodePaths OrgForm Spec_OrgForm OrgTree Spec_OrgTree OrgTreePaths OrgTreeProofs OrgTreeCase Form Spec_EndToEnd EndToEnd Classes MetaObj.
Set Implicit Arguments.
Open Scope list_scope.
Open Scope N_scope.

Lemma fitb_of n : fit_name n -> fitb n = true.
Proof.
  intros (H1 & H2 & H3 & H4). unfold fitb. destruct n as [|c n]; [congruence|].
  destruct (mem_ch 47 (c :: n)) eqn:E; [exfalso; apply H2, mem_ch_in; exact E|].
  destruct (str_eqb (c :: n) [46]) eqn:E2; [apply str_eqb_spec in E2; contradiction|]. destruct (str_eqb (c :: n) [46; 46]) eqn:E3; [apply str_eqb_spec in E3; contradiction|]. reflexivity.
Qed.
Definition parts_of (key : list N) : list (list N) := match key with [] => [] | _ :: r => split_ch 47 r end.
Lemma parts_written g : g <> [] -> Forall (fun e => ~ In 47 e) g -> parts_of (written g) = g.
Proof. intros H F. unfold written, parts_of. apply split_ch_join; assumption. Qed.

Section S.
Variable dest : list N.
Variable st : list (list N * list N).
Notation D := (enter [] dest).
Lemma noslash_at p : Forall fit_name p -> Forall (fun e => ~ In 47 e) (D ++ p).
Proof. intros H. apply Forall_app. split; [apply good_nice, dest_nice|]. revert H. apply Forall_impl. intros a Ha. apply Ha. Qed.

(** ** The files of a folder *)
Definition file_here (p : list (list N)) (key : list N) : folder :=
  let n := last (parts_of key) [] in
  if fitb n && str_eqb key (written (D ++ p ++ [n])) then match dget key st with Some b => [(n, TFile b)] | None => [] end else [].
Definition files_of (p : list (list N)) : folder := flat_map (file_here p) (map fst st).
Lemma dget_app {V} n (a b : list (list N * V)) : dget n (a ++ b) = match dget n a with Some v => Some v | None => dget n b end.
Proof. induction a as [|[k v] a IH]; [reflexivity|]. cbn. destruct (str_eqb n k); [reflexivity|exact IH]. Qed.
Lemma in_keys {V} k (d : list (list N * V)) : In k (map fst d) -> dget k d <> None.
Proof. induction d as [|[k' v] d IH]; [intros []|]. cbn. destruct (str_eqb k k') eqn:E; [discriminate|]. intros [->|H]; [rewrite str_eqb_refl in E; discriminate|exact (IH H)]. Qed.
Lemma file_here_get p key n t : dget n (file_here p key) = Some t -> fit_name n /\ key = written (D ++ p ++ [n]) /\ exists b, t = TFile b /\ dget key st = Some b.
Proof.
  unfold file_here. destruct (fitb _ && _) eqn:E; [|discriminate]. apply andb_true_iff in E. destruct E as [E1 E2]. apply str_eqb_spec in E2. destruct (dget key st) as [b|] eqn:Eb; [|discriminate].
  cbn [dget]. destruct (str_eqb n (last (parts_of key) [])) eqn:E3; [|discriminate]. apply str_eqb_spec in E3. subst n. intros H. injection H as <-.
  split; [exact (fit_by _ E1)|]. split; [exact E2|]. exists b. split; [reflexivity|]. first [exact Eb|reflexivity].
Qed.
Lemma files_exist p : Forall fit_name p -> files_in D st p (files_of p).
Proof.
  intros Hp n t. split.
  - unfold files_of. induction (map fst st) as [|k l IH]; [discriminate|]. cbn [flat_map]. rewrite dget_app. destruct (dget n (file_here p k)) as [t'|] eqn:E; [|exact IH].
    intros H. injection H as ->. apply file_here_get in E. destruct E as (E1 & E2 & b & E3 & E4). split; [exact E1|]. exists b. split; [exact E3|]. rewrite <- E2. exact E4.
  - intros (Hn & b & -> & Hb). assert (Hin : In (written (D ++ p ++ [n])) (map fst st)) by (apply dget_in in Hb; exact (in_fst _ _ _ Hb)).
    assert (Hh : dget n (file_here p (written (D ++ p ++ [n]))) = Some (TFile b)).
    { unfold file_here. rewrite parts_written; [|intros E; apply app_eq_nil in E; destruct E as [_ E]; apply app_eq_nil in E; destruct E; discriminate|apply noslash_at, Forall_app; split; [exact Hp|constructor; [exact Hn|constructor]]].
      rewrite app_assoc, last_last, (fitb_of Hn), <- app_assoc, str_eqb_refl. cbn [andb]. rewrite Hb. cbn [dget]. rewrite str_eqb_refl. reflexivity. }
    unfold files_of. induction (map fst st) as [|k l IH]; [destruct Hin|]. cbn [flat_map]. rewrite dget_app. destruct (dget n (file_here p k)) as [t'|] eqn:E.
    + apply file_here_get in E. destruct E as (_ & E2 & b' & -> & E4). rewrite E2 in E4. rewrite Hb in E4. injection E4 as ->. reflexivity.
    + destruct Hin as [->|Hin]; [congruence|exact (IH Hin)].
Qed.

(** ** The folders of the objects *)
Fixpoint pairs_up (p : list (list N)) : list Tree.path := match p with t :: n :: r => [] :: map (cons (t, n)) (pairs_up r) | _ => [[]] end.
Lemma pairs_up_spec : forall p q rest, p = dirs q ++ rest -> In q (pairs_up p).
Proof.
  intros p q. revert p. induction q as [|[t n] q IH]; intros p rest ->.
  - cbn. destruct rest as [|t [|n r]]; left; reflexivity.
  - cbn [dirs flat_map fst snd app]. right. apply in_map. eapply IH. reflexivity.
Qed.
Lemma pairs_up_dirs : forall k p q, (List.length p <= k)%nat -> In q (pairs_up p) -> exists rest, p = dirs q ++ rest.
Proof.
  induction k as [|k IH]; intros [|t [|n r]] q Hk Hq; cbn in Hk; try lia; cbn in Hq.
  - destruct Hq as [<-|[]]. exists []. reflexivity.
  - destruct Hq as [<-|[]]. exists []. reflexivity.
  - destruct Hq as [<-|[]]. exists [t]. reflexivity.
  - destruct Hq as [<-|Hq]; [exists (t :: n :: r); reflexivity|]. apply in_map_iff in Hq. destruct Hq as (q' & <- & Hq). destruct (IH r q' ltac:(lia) Hq) as (rest & ->). exists rest. reflexivity.
Qed.
Definition below_key (key : list N) : list (list N) := skipn (List.length D) (parts_of key).
Definition candidates (key : list N) : list Tree.path :=
  let r := below_key key in
  if forallb fitb r && str_eqb key (written (D ++ r)) then filter (fun q => negb (Nat.eqb (List.length (dirs q)) (List.length r)) && match q with [] => false | _ => true end) (pairs_up r) else [].
Lemma fits_by l : forallb fitb l = true <-> Forall fit_name l.
Proof. rewrite forallb_forall, Forall_forall. split; intros H x Hx; [apply fit_by|apply fitb_of]; auto. Qed.
Lemma candidates_spec q : (exists key, In key (map fst st) /\ In q (candidates key)) <-> q <> [] /\ stands D st (dirs q).
Proof.
  split.
  - intros (key & Hk & Hq). unfold candidates in Hq. destruct (_ && _) eqn:E; [|destruct Hq]. apply andb_true_iff in E. destruct E as [E1 E2]. apply fits_by in E1. apply str_eqb_spec in E2.
    apply filter_In in Hq. destruct Hq as [Hq Hc]. apply andb_true_iff in Hc. destruct Hc as [Hc1 Hc2]. split; [intros ->; discriminate|].
    destruct (@pairs_up_dirs _ _ _ (le_n _) Hq) as (rest & Er). exists rest. split.
    + intros ->. rewrite app_nil_r in Er. rewrite Er, Nat.eqb_refl in Hc1. discriminate.
    + rewrite <- Er. split; [exact E1|]. rewrite <- E2. exact (in_keys _ _ Hk).
  - intros (Hq & rest & R1 & R2 & R3). exists (written (D ++ dirs q ++ rest)). split.
    + destruct (dget (written (D ++ dirs q ++ rest)) st) as [b|] eqn:E; [|congruence]. apply dget_in in E. exact (in_fst _ _ _ E).
    + unfold candidates, below_key. rewrite parts_written; [|intros E; apply app_eq_nil in E; destruct E as [_ E]; apply app_eq_nil in E; destruct E; contradiction|apply noslash_at; exact R2].
      rewrite skipn_app, skipn_all, Nat.sub_diag. cbn [app skipn]. rewrite (proj2 (fits_by _) R2), str_eqb_refl. cbn [andb]. apply filter_In. split; [eapply pairs_up_spec; reflexivity|].
      rewrite app_length. destruct q as [|t q]; [contradiction|]. destruct rest as [|x rest]; [contradiction|]. cbn [List.length]. rewrite (proj2 (Nat.eqb_neq _ _)); [reflexivity|lia].
Qed.
Definition tag_dec (a b : tag) : {a = b} + {a <> b}. Proof. decide equality; apply (list_eq_dec N.eq_dec). Defined.
Definition object_paths : list Tree.path := nodup (list_eq_dec tag_dec) (flat_map candidates (map fst st)).
Definition objects_of : sources folder := map (fun q => (q, files_of (dirs q))) object_paths.
Lemma object_paths_spec q : In q object_paths <-> q <> [] /\ stands D st (dirs q).
Proof. unfold object_paths. rewrite nodup_In, in_flat_map. apply candidates_spec. Qed.
Lemma objects_exist : object_folders D st objects_of.
Proof.
  assert (Hk : forall q fo, In (q, fo) objects_of <-> In q object_paths /\ fo = files_of (dirs q)).
  { intros q fo. unfold objects_of. rewrite in_map_iff. split; [intros (q' & E & H); injection E as <- <-; tauto|intros [H ->]; exists q; tauto]. }
  split.
  - intros q. rewrite <- object_paths_spec. split; [intros (fo & H); apply Hk in H; tauto|intros H; exists (files_of (dirs q)); apply Hk; tauto].
  - intros q fo H. apply Hk in H. destruct H as [H ->]. apply object_paths_spec in H. destruct H as (_ & rest & _ & F & _). apply files_exist. apply Forall_app in F. tauto.
Qed.
End S.

(** ** An order of them *)
Section R.
Variable lists : list N -> bool.
Variable rd : list N -> folder -> option (list N * list N).
Definition closed (ss : sources folder) : Prop := forall a r, a <> [] -> In (a ++ r) (map fst ss) -> In a (map fst ss).
Lemma in_under (q : tag) p (o : folder) (ss : sources folder) : In (p, o) (Tree.under q ss) <-> In (q :: p, o) ss.
Proof.
  unfold Tree.under. rewrite in_flat_map. split.
  - intros ([[|x p'] o'] & H & E); cbn in E; [destruct E|]. destruct (tag_eqb x q) eqn:T; [|destruct E]. destruct E as [E|[]]. injection E as -> ->.
    unfold tag_eqb in T. apply andb_true_iff in T. destruct T as [T1 T2]. apply str_eqb_spec in T1, T2. destruct x, q. cbn in *. subst. exact H.
  - intros H. exists (q :: p, o). split; [exact H|]. cbn. unfold tag_eqb. rewrite !str_eqb_refl. left. reflexivity.
Qed.
Lemma closed_under q ss : closed ss -> closed (Tree.under q ss).
Proof.
  intros H a r Ha Hi. apply fst_in in Hi. destruct Hi as (o & Hi). apply in_under in Hi. apply in_fst in Hi. change (q :: a ++ r) with ((q :: a) ++ r) in Hi. apply H in Hi; [|discriminate].
  apply fst_in in Hi. destruct Hi as (o' & Hi). apply in_under in Hi. exact (in_fst _ _ _ Hi).
Qed.
Definition heads (ss : sources folder) : list tag := nodup tag_dec (flat_map (fun e : Tree.path * folder => match fst e with q :: _ => [q] | [] => [] end) ss).
Lemma heads_listing ss : Tree.listing ss (heads ss).
Proof.
  split; [apply NoDup_nodup|]. intros q. unfold heads. rewrite nodup_In, in_flat_map. split.
  - intros ([[|x p] o] & H & E); cbn in E; [destruct E|]. destruct E as [->|[]]. exists p, o. exact H.
  - intros (p & o & H). exists (q :: p, o). split; [exact H|left; reflexivity].
Qed.
Lemma reads_exist : forall k ss, closed ss -> (forall p o, In (p, o) ss -> (List.length p <= k)%nat) -> exists cs, reads_all lists rd ss cs.
Proof.
  induction k as [|k IH]; intros ss Hc Hk.
  - exists []. apply reads_sub with (qs := []); [|constructor]. split; [constructor|]. intros q. split; [intros []|]. intros (p & o & H). apply Hk in H. cbn in H. lia.
  - assert (Hl : forall qs, (forall q, In q qs -> exists p o, In (q :: p, o) ss) -> exists cs, reads_list lists rd ss qs cs).
    { induction qs as [|q qs IHq]; intros Hq; [exists []; constructor|]. destruct IHq as (cs & Hcs); [intros q' H; apply Hq; right; exact H|].
      destruct (Hq q (or_introl eq_refl)) as (p & o & Hi). assert (Hown : exists own, In ([], own) (Tree.under q ss)).
      { apply in_fst in Hi. change (q :: p) with ([q] ++ p) in Hi. apply Hc in Hi; [|discriminate]. apply fst_in in Hi. destruct Hi as (own & Hi). exists own. apply in_under. exact Hi. }
      destruct Hown as (own & Hown). destruct (lists (fst q)) eqn:El.
      - destruct (IH (Tree.under q ss)) as (sub & Hsub); [apply closed_under; exact Hc|intros p' o' H; apply in_under in H; apply Hk in H; cbn in H; lia|].
        eexists (_ :: cs). constructor; [|exact Hcs]. eapply reads_node with (cs := sub); [exact Hown|intros E; congruence|intros _; exact Hsub].
      - eexists (_ :: cs). constructor; [|exact Hcs]. eapply reads_node with (cs := []); [exact Hown|reflexivity|intros E; congruence]. }
    destruct (Hl (heads ss)) as (cs & Hcs); [intros q H; apply heads_listing; exact H|]. exists cs. eapply reads_sub; [apply heads_listing|exact Hcs].
Qed.
End R.
Lemma folders_found dest st : exists srcs ss folders, files_in (enter [] dest) st [] srcs /\ object_folders (enter [] dest) st ss /\ reads_all real_lists real_rd ss folders.
Proof.
  pose proof (objects_exist dest st) as Ho. set (ss := objects_of dest st) in *.
  destruct (@reads_exist real_lists real_rd (fold_right (fun e m => Nat.max (List.length (fst e)) m) O ss) ss) as (cs & Hcs).
  - intros a r Ha Hi. apply fst_in in Hi. destruct Hi as (o & Hi). destruct (proj1 (proj1 Ho _) (ex_intro _ o Hi)) as (_ & rest & R1 & R2 & R3).
    destruct (proj2 (proj1 Ho a)) as (fo & Hfo); [|exact (in_fst _ _ _ Hfo)]. split; [exact Ha|]. exists (dirs r ++ rest). rewrite dirs_app, <- app_assoc in R2, R3.
    split; [intros E; apply app_eq_nil in E; destruct E; contradiction|]. split; assumption.
  - clear. intros p o. induction ss as [|[p' o'] l IH]; [intros []|]. cbn [fold_right fst]. intros [E|H]; [injection E as -> ->; lia|]. apply IH in H. lia.
  - exists (files_of dest st []), ss, cs. split; [apply files_exist; constructor|]. split; [exact Ho|exact Hcs].
Qed.
