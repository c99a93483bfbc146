(** The elements of ordinary forms: what extraction keeps. *)
From Coq Require Import Lia Permutation.
From Verif Require Import PyBase PyInt Brace Header CalcOffset Container UpdateDictProofs HeaderProofs Spec_Misc MiscProofs MetaObjBase FormCode Payload MetaObj FormElem Spec_FormElem FormElemBase FormElemProofs Form27 Spec_Form27 Form27Proofs.
Set Implicit Arguments.
Open Scope list_scope.
Open Scope N_scope.

(** ** Dictionaries *)
Section D.
Variable V : Type.
Implicit Types d a b : list (list N * V).
Lemma dset_mid k (v w : V) a b : ~ In k (map fst a) -> dset k v (a ++ (k, w) :: b) = a ++ (k, v) :: b.
Proof.
  induction a as [|[k' v'] a IH]; intros H; cbn [app dset]; [rewrite str_eqb_refl; reflexivity|]. cbn [map fst] in H.
  destruct (str_eqb k k') eqn:E; [apply str_eqb_spec in E; subst; contradiction H; left; reflexivity|]. rewrite IH; [reflexivity|]. intros Hi. apply H. right. exact Hi.
Qed.
Lemma dget_mid k (w : V) a b : ~ In k (map fst a) -> dget k (a ++ (k, w) :: b) = Some w.
Proof.
  induction a as [|[k' v'] a IH]; intros H; cbn [app dget]; [rewrite str_eqb_refl; reflexivity|]. cbn [map fst] in H.
  destruct (str_eqb k k') eqn:E; [apply str_eqb_spec in E; subst; contradiction H; left; reflexivity|]. apply IH. intros Hi. apply H. right. exact Hi.
Qed.
Lemma dset_end k (v : V) d b : NoDup (map fst (d ++ (k, v) :: b)) -> dset k v d = d ++ [(k, v)].
Proof. intros H. rewrite map_app in H. cbn [map fst] in H. apply NoDup_remove_2 in H. apply dset_new. intros Hi. apply H. apply in_or_app. left. exact Hi. Qed.
End D.
Lemma dupdate_dsets (d b : list (list N * entry27)) : dupdate d b = dsets d b. Proof. reflexivity. Qed.

Lemma nodup_fst (A : Type) (a b : list A) : NoDup (a ++ b) -> NoDup a.
Proof. induction a as [|x a IH]; intros H; [constructor|]. cbn [app] in H. inversion H; subst. constructor; [intros Hi; apply H2, in_or_app; left; exact Hi|apply IH; assumption]. Qed.
Lemma nodup_snd (A : Type) (a b : list A) : NoDup (a ++ b) -> NoDup b.
Proof. induction a as [|x a IH]; intros H; [exact H|]. cbn [app] in H. inversion H; subst. apply IH; assumption. Qed.

(** ** Pages *)
Definition page_format (l : list val) : val := match l with v :: _ => v | [] => VNone end.
Definition pages_entries (path : list N) (p : ppages) : list (list N * entry27) :=
  map (fun x => (sub path (fst (fst x)), EPage (page_format (snd (fst x))) (VList (snd (fst x))) (Some (snd x)))) (combine (pg_list p) (infos p)) ++ [(sub path pages_word, EPages (pg_names p))].
Definition half (path : list N) (l : list (list N * list val)) : list (list N * entry27) := map (fun x => (sub path (fst x), EPage (page_format (snd x)) (VList (snd x)) None)) l.
Lemma half_keys path l : map fst (half path l) = map (fun x => sub path (fst x)) l.
Proof. unfold half. rewrite map_map. reflexivity. Qed.
Lemma dec_list_ok path l : Forall page_is l -> forall d, NoDup (map fst (d ++ half path l)) -> dec_page_list path (length l) (map (fun x => VList (snd x)) l) d = Ok (map fst l, d ++ half path l).
Proof.
  induction l as [|[n r] l IH]; intros Hf d Hn; [cbn; rewrite app_nil_r; reflexivity|]. inversion Hf as [|? ? (b0 & b1 & b2 & b3 & b4 & b5 & q & Er) Hr]; subst. cbn [fst snd] in Er. subst r.
  cbn [length map dec_page_list snd]. cbn [vget nth_error bind]. change (vstr (quoted n)) with (@Ok (list N) (34 :: n ++ [34])). cbn [bind]. rewrite quoted_dec, calc_two.
  cbn [half map fst snd page_format] in Hn. rewrite (@dset_end _ _ _ _ _ Hn). rewrite IH; [|exact Hr|rewrite <- app_assoc; exact Hn]. cbn [bind map fst half snd page_format]. rewrite <- app_assoc. reflexivity.
Qed.
Lemma infos_len p : pages_ok p -> length (infos p) = length (pg_list p).
Proof.
  intros _. unfold infos. destruct (pg_list p) as [|x r]; [reflexivity|]. cbn [length]. f_equal. generalize (skipn (length (pg_info p) - 4 * length r) (pg_info p)). induction (length r) as [|n IH]; intros l; [reflexivity|]. cbn. rewrite IH. reflexivity.
Qed.
Lemma infos_concat p : pages_ok p -> concat (infos p) = pg_info p.
Proof.
  intros [_ _ Hi Hn]. unfold infos. destruct (pg_list p) as [|x r] eqn:El; [rewrite Hn by reflexivity; reflexivity|]. cbn [length] in Hi.
  assert (G : forall n l, length l = (4 * n)%nat -> concat (fours n l) = l).
  { induction n as [|n IH]; intros l H; [destruct l; [reflexivity|discriminate]|]. cbn [fours concat]. rewrite IH by (rewrite skipn_length; lia). apply firstn_skipn. }
  cbn [concat]. rewrite G by (rewrite skipn_length; lia). apply firstn_skipn.
Qed.
Lemma skipn_twice (A : Type) a b (l : list A) : skipn a (skipn b l) = skipn (b + a) l.
Proof. revert l. induction b as [|b IH]; intros l; [reflexivity|]. destruct l as [|x l]; [destruct a; reflexivity|]. apply IH. Qed.
Lemma slice_in f c (info back : list val) i m : (i + m <= length info)%nat -> pyslice (f ++ c :: info ++ back) (zlen f + 1 + Z.of_nat i) (zlen f + 1 + Z.of_nat i + Z.of_nat m) = firstn m (skipn i info).
Proof.
  intros H. assert (E : f ++ c :: info ++ back = (f ++ c :: firstn i info) ++ firstn m (skipn i info) ++ (skipn m (skipn i info) ++ back)).
  { rewrite <- !app_assoc. cbn [app]. rewrite (app_assoc (firstn m _)), firstn_skipn, app_assoc, firstn_skipn. reflexivity. }
  rewrite E. apply pyslice_mid'; unfold zlen; repeat (rewrite app_length; cbn [length]); rewrite ?firstn_length, ?skipn_length; lia.
Qed.
(** what a page list looks like when its records are filled in *)
Definition full (path : list N) (l : list (list N * list val)) (is_ : list (list val)) : list (list N * entry27) :=
  map (fun x => (sub path (fst (fst x)), EPage (page_format (snd (fst x))) (VList (snd (fst x))) (Some (snd x)))) (combine l is_).
Lemma full_keys path l : forall is_, length is_ = length l -> map fst (full path l is_) = map (fun x => sub path (fst x)) l.
Proof. induction l as [|x l IH]; intros [|i is_] H; try discriminate; [reflexivity|]. cbn [full combine map fst]. f_equal. apply IH. injection H as H. exact H. Qed.
Lemma infos_rest path f c info back k n : k = zlen info -> forall l i d more,
  (i + length l)%nat = n -> (1 <= i)%nat -> (4 * length l <= length info)%nat -> NoDup (map fst (d ++ half path l ++ more)) ->
  dec_infos path (f ++ c :: info ++ back) (zlen f) (k - Z.of_nat n * 4) i (map fst l) (d ++ half path l ++ more) =
  Ok (d ++ full path l (fours (length l) (skipn (length info - 4 * length l) info)) ++ more).
Proof.
  intros -> . induction l as [|[m r] l IH]; intros i d more Hn Hi Hl Hd; [reflexivity|]. cbn [length] in Hn, Hl. cbn [map fst dec_infos]. destruct i as [|i]; [lia|].
  cbn [half map fst snd] in *. change (map (fun x => (sub path (fst x), EPage (page_format (snd x)) (VList (snd x)) None)) l) with (half path l) in *.
  assert (Hk : ~ In (sub path m) (map fst d)).
  { rewrite map_app in Hd. cbn [map fst app] in Hd. apply NoDup_remove_2 in Hd. intros H. apply Hd, in_or_app. left. exact H. }
  rewrite calc_two. cbn [app]. rewrite dget_mid by exact Hk. rewrite dset_mid by exact Hk.
  set (j := (length info - 4 * S (length l))%nat).
  replace (Z.of_nat (S i) * 4 + 1 + zlen f + (zlen info - Z.of_nat n * 4))%Z with (zlen f + 1 + Z.of_nat j)%Z by (unfold j, zlen; lia).
  replace (zlen f + 1 + Z.of_nat j + 4)%Z with (zlen f + 1 + Z.of_nat j + Z.of_nat 4)%Z by lia. rewrite slice_in by (unfold j; lia).
  match goal with |- context [d ++ ?e :: half path l ++ more] => replace (d ++ e :: half path l ++ more) with ((d ++ [e]) ++ half path l ++ more) by (rewrite <- app_assoc; reflexivity) end.
  rewrite IH; [|lia|lia|lia|].
  - cbn [length fours full combine map fst snd]. rewrite <- app_assoc. cbn [app]. fold j. do 4 f_equal. unfold full. do 3 f_equal. rewrite skipn_twice. f_equal. unfold j. lia.
  - rewrite <- app_assoc. rewrite !map_app in *. cbn [map fst] in *. exact Hd.
Qed.
Lemma infos_all path f c info back l d more : (4 * (length l - 1) <= length info)%nat -> (l = [] -> info = []) -> NoDup (map fst (d ++ half path l ++ more)) ->
  dec_infos path (f ++ c :: info ++ back) (zlen f) (zlen info - Z.of_nat (length l) * 4) 0 (map fst l) (d ++ half path l ++ more) =
  Ok (d ++ full path l (match l with [] => [] | _ :: r => let k := (length info - 4 * length r)%nat in firstn k info :: fours (length r) (skipn k info) end) ++ more).
Proof.
  intros Hi Hn Hd. destruct l as [|[m r] l]; [reflexivity|]. cbn [length] in Hi. cbn [map fst dec_infos]. cbn [half map fst snd] in *. change (map (fun x => (sub path (fst x), EPage (page_format (snd x)) (VList (snd x)) None)) l) with (half path l) in *.
  assert (Hk : ~ In (sub path m) (map fst d)).
  { rewrite map_app in Hd. cbn [map fst app] in Hd. apply NoDup_remove_2 in Hd. intros H. apply Hd, in_or_app. left. exact H. }
  rewrite calc_two. cbn [app]. rewrite dget_mid by exact Hk. rewrite dset_mid by exact Hk. set (j := (length info - 4 * length l)%nat).
  replace (zlen f + 1)%Z with (zlen f + 1 + Z.of_nat 0)%Z by lia. replace (zlen f + 1 + Z.of_nat 0 + 4 + (zlen info - Z.of_nat (length ((m, r) :: l)) * 4))%Z with (zlen f + 1 + Z.of_nat 0 + Z.of_nat j)%Z by (unfold j, zlen; cbn [length]; lia).
  rewrite slice_in by (unfold j; lia). cbn [skipn].
  match goal with |- context [d ++ ?e :: half path l ++ more] => replace (d ++ e :: half path l ++ more) with ((d ++ [e]) ++ half path l ++ more) by (rewrite <- app_assoc; reflexivity) end.
  rewrite (@infos_rest path f c info back (zlen info) (length ((m, r) :: l)) eq_refl); [|cbn [length]; lia|lia|lia|].
  - rewrite <- app_assoc. reflexivity.
  - rewrite <- app_assoc. rewrite !map_app in *. cbn [map fst] in *. exact Hd.
Qed.
Lemma pydel_most x (l : list val) j : (zlen (x :: l) <= j)%Z -> pydel (x :: l) 1 j = [x].
Proof.
  intros H. unfold pydel. replace (clampi (zlen (x :: l)) 1) with 1%Z by (rewrite clampi_in; [reflexivity|rewrite zlen_cons; pose proof (zlen_nonneg l); lia]).
  replace (clampi (zlen (x :: l)) j) with (zlen (x :: l)) by (unfold clampi; rewrite zlen_cons in *; pose proof (zlen_nonneg l); replace (j <? 0)%Z with false by lia; lia).
  replace (Z.max 1 (zlen (x :: l))) with (zlen (x :: l)) by (rewrite zlen_cons; pose proof (zlen_nonneg l); lia). unfold zlen. rewrite Nat2Z.id, skipn_all. reflexivity.
Qed.
Lemma dec_pages_ok path p : pages_ok p -> NoDup (map fst (kept_pages path p)) -> dec_pages path (pages_raw p) = Ok (pages_bare p, pg_names p, pages_entries path p).
Proof.
  intros Hp Hn. pose proof Hp as [Hfit Hnm Hi H0]. unfold dec_pages, pages_raw. rewrite pages_place by exact Hfit. cbn [bind]. rewrite py_nth_mid. cbn [bind vlist vnth nth_error]. rewrite number_int. cbn [bind].
  replace (Z.of_nat (length (pg_list p)) <? 0)%Z with false by lia. rewrite Nat2Z.id. cbn [skipn].
  assert (Hk : map fst (kept_pages path p) = map fst (half path (pg_list p) ++ [(sub path pages_word, EPages (pg_names p))])).
  { unfold kept_pages. rewrite !map_app, map_map, half_keys. reflexivity. }
  rewrite Hk in Hn. rewrite (@dec_list_ok path (pg_list p) Hnm []).
  2:{ cbn [app]. rewrite map_app in Hn. exact (nodup_fst _ _ Hn). }
  cbn [bind app]. rewrite pydel_most by (rewrite !zlen_cons; unfold zlen; rewrite map_length; lia). rewrite zput_mid. cbn [bind].
  destruct Hfit as [_ Hg]. assert (Eg : exists g0 g1 g2, pg_gap p = [g0; g1; g2]). { destruct (pg_gap p) as [|g0 [|g1 [|g2 [|? ?]]]]; try discriminate. eauto. }
  destruct Eg as (g0 & g1 & g2 & Eg). rewrite Eg. cbn [app]. set (pl := VList [pg_ver p]).
  assert (E : forall w b, pg_front p ++ pl :: g0 :: g1 :: g2 :: w :: b = (pg_front p ++ [pl; g0; g1; g2]) ++ w :: b) by (intros; rewrite <- app_assoc; reflexivity).
  rewrite !E. set (f := pg_front p ++ [pl; g0; g1; g2]). replace (zlen (pg_front p) + 4)%Z with (zlen f) by (unfold f; rewrite zlen_app, !zlen_cons, zlen_nil; lia).
  rewrite py_nth_mid. cbn [bind]. rewrite number_int. cbn [bind]. rewrite calc_two. change s_pages with pages_word.
  rewrite (@dset_end _ _ (EPages (map fst (pg_list p))) _ [] Hn). 
  change (Z.of_nat (length (pg_info p))) with (zlen (pg_info p)).
  pose proof (@infos_all path f (number (length (pg_info p))) (pg_info p) (pg_back p) (pg_list p) [] [(sub path pages_word, EPages (map fst (pg_list p)))] Hi H0 Hn) as Q. cbn [app] in Q. rewrite Q. clear Q. cbn [bind].
  assert (Ed : pydel (f ++ number (length (pg_info p)) :: pg_info p ++ pg_back p) (zlen f + 1) (zlen f + 1 + zlen (pg_info p)) = f ++ number (length (pg_info p)) :: pg_back p).
  { replace (f ++ number (length (pg_info p)) :: pg_info p ++ pg_back p) with ((f ++ [number (length (pg_info p))]) ++ pg_info p ++ pg_back p) by (rewrite <- app_assoc; reflexivity).
    rewrite pydel_mid by zl. rewrite <- app_assoc. reflexivity. }
  rewrite Ed, zput_mid. cbn [bind]. unfold pages_bare. rewrite Eg. cbn [app]. fold pl. rewrite E. reflexivity.
Qed.

(** ** Elements *)
Lemma number_truthy z : truthy (VStr (str_of_int z)) = true.
Proof. cbn [truthy]. destruct (str_of_int z) eqn:E; [|reflexivity]. pose proof (int_of_str_of_int z) as H. rewrite E in H. discriminate. Qed.
Lemma nth_rev (A : Type) (l : list A) : forall i x, nth_error (rev l) i = Some x -> (i < length l)%nat /\ nth_error l (length l - 1 - i) = Some x.
Proof.
  intros i x H. assert (Hi : (i < length l)%nat) by (rewrite <- (rev_length l); apply nth_error_Some; congruence). split; [exact Hi|].
  pose proof (nth_error_nth' l x (n := length l - 1 - i) ltac:(lia)) as E. rewrite E. f_equal. replace (length l - 1 - i)%nat with (length l - S i)%nat by lia. rewrite <- rev_nth by exact Hi. apply nth_error_nth with (d := x) in H. exact H.
Qed.
Lemma page_name_ok names pt page : on_page names pt page -> page_name names pt = Ok page.
Proof.
  intros H. unfold page_name. destruct H as [|s ->|i n H|i n H].
  - reflexivity.
  - destruct (truthy (VStr s)); reflexivity.
  - assert (Hi : (i < length names)%nat) by (apply nth_error_Some; congruence). unfold number. rewrite number_truthy.
    replace (length names =? 0)%nat with false by (symmetry; apply Nat.eqb_neq; lia). cbn [andb negb vstr bind]. rewrite int_of_str_of_int. cbn [bind]. rewrite str_eqb_refl.
    replace (Z.of_nat i <? 0)%Z with false by lia. rewrite Nat2Z.id, H. replace (Z.of_nat i <? 0)%Z with false by lia. reflexivity.
  - apply nth_rev in H. destruct H as [Hi H]. rewrite number_truthy. replace (length names =? 0)%nat with false by (symmetry; apply Nat.eqb_neq; lia). cbn [andb negb vstr bind]. rewrite int_of_str_of_int. cbn [bind]. rewrite str_eqb_refl.
    replace (-1 - Z.of_nat i <? 0)%Z with true by lia. unfold zlen. replace (-1 - Z.of_nat i + Z.of_nat (length names) <? 0)%Z with false by lia.
    replace (Z.to_nat (-1 - Z.of_nat i + Z.of_nat (length names))) with (length names - 1 - i)%nat by lia. rewrite H. reflexivity.
Qed.
Lemma vneg_at k l (x : val) r : length r = k -> vneg (S k) (l ++ x :: r) = Ok x.
Proof.
  intros H. unfold vneg. rewrite app_length. cbn [length]. replace (length l + S (length r) <? S k)%nat with false by (symmetry; apply Nat.ltb_ge; lia). replace (length l + S (length r) - S k)%nat with (length l) by lia.
  unfold vnth. rewrite nth_error_app2, Nat.sub_diag by lia. reflexivity.
Qed.
Lemma depth_in x l : In x l -> (vdepth x < vdepth (VList l))%nat.
Proof.
  intros H. cbn [vdepth]. apply Nat.lt_succ_r. induction l as [|y l IH]; [destruct H|]. cbn [fold_right]. destruct H as [<-|H]; [lia|]. specialize (IH H). lia.
Qed.
Section Dec.
Variable pidx : list (list N * list N).
Fixpoint elem_entries (path : list N) (e : pelem) : list (list N * entry27) :=
  let key := sub (page_path path (pl_page e)) (pl_name e) in
  (key, EElem (pl_id e) (page_path path (pl_page e)) (pbare e) (dget (pl_id e) pidx)) ::
  match e with
  | Plain _ _ _ _ _ _ _ _ _ _ _ => []
  | Panel _ _ _ _ pages _ _ _ _ _ _ _ kids _ => pages_entries (inside_of key) pages ++ flat_map (elem_entries (inside_of key)) kids
  end.
Lemma pages_keys path p : pages_ok p -> map fst (pages_entries path p) = map fst (kept_pages path p).
Proof.
  intros H. unfold pages_entries, kept_pages. rewrite !map_app. f_equal. change (map _ (combine (pg_list p) (infos p))) with (full path (pg_list p) (infos p)). rewrite full_keys by apply infos_len, H. rewrite map_map. reflexivity.
Qed.
Lemma elem_keys e : forall nms path, pelem_ok true nms e -> map fst (elem_entries path e) = map fst (kept_elem path e).
Proof.
  induction e as [ty id name page mid geo geo' pt x nm last|id name page h pages more mid geo geo' pt x nm kids after IH] using pelem_ind2; intros nms path Hok; [reflexivity|].
  inversion Hok as [|? ? ? ? ? ? ? ? ? ? ? ? ? ? ? Hn Hr Hf Ha Hks]; subst. cbn [elem_entries kept_elem map fst pl_page pl_name]. f_equal. rewrite !map_app. rewrite pages_keys by apply Hr, eq_refl. f_equal.
  set (inner := inside_of _). clearbody inner. clear -IH Hks. induction kids as [|c kids IHk]; [reflexivity|]. inversion IH as [|? ? IHc IHr]; subst. inversion Hks; subst. cbn [flat_map]. rewrite !map_app. rewrite (IHc (pg_names pages)) by assumption. f_equal. apply IHk; assumption.
Qed.
Lemma elems_keys es nms path : Forall (pelem_ok true nms) es -> map fst (flat_map (elem_entries path) es) = map fst (flat_map (kept_elem path) es).
Proof. induction 1 as [|e es He H IH]; [reflexivity|]. cbn [flat_map]. rewrite !map_app, IH. f_equal. apply elem_keys with nms. exact He. Qed.
Lemma dec_run_ok one es path more : forall d, (forall e d, In e es -> NoDup (map fst (d ++ elem_entries path e)) -> one (praw e) d = Ok (pitem e, d ++ elem_entries path e)) ->
  NoDup (map fst (d ++ flat_map (elem_entries path) es)) -> dec_run one (length es) (map praw es ++ more) d = Ok (map pitem es, d ++ flat_map (elem_entries path) es).
Proof.
  induction es as [|e es IH]; intros d Ho Hn; [cbn; rewrite app_nil_r; reflexivity|]. cbn [length map app dec_run flat_map] in *.
  rewrite Ho; [|left; reflexivity|rewrite app_assoc, map_app in Hn; exact (nodup_fst _ _ Hn)]. cbn [bind]. rewrite IH; [|intros e' d' H; apply Ho; right; exact H|rewrite <- app_assoc; exact Hn]. cbn [bind]. rewrite <- app_assoc. reflexivity.
Qed.
Lemma dec_section_ok one es path after d : (forall e d, In e es -> NoDup (map fst (d ++ elem_entries path e)) -> one (praw e) d = Ok (pitem e, d ++ elem_entries path e)) ->
  NoDup (map fst (d ++ flat_map (elem_entries path) es)) -> dec_section one (number (length es) :: map praw es ++ after) d = Ok (kids_bare es after, map pitem es, d ++ flat_map (elem_entries path) es).
Proof.
  intros Ho Hn. unfold dec_section. cbn [vnth nth_error bind]. rewrite number_int. cbn [bind]. destruct es as [|e es]; [cbn; rewrite app_nil_r; reflexivity|].
  replace (Z.of_nat (length (e :: es)) =? 0)%Z with false by (cbn [length]; lia). replace (Z.of_nat (length (e :: es)) <? 0)%Z with false by lia. rewrite Nat2Z.id. cbn [skipn].
  rewrite (@dec_run_ok one (e :: es) path after d Ho Hn). cbn [bind]. replace (skipn (length (e :: es)) (map praw (e :: es) ++ after)) with after; [reflexivity|].
  rewrite <- (map_length praw (e :: es)). rewrite skipn_app, skipn_all, Nat.sub_diag. reflexivity.
Qed.
Lemma dec_elem_ok e : forall fuel nms path d, pelem_ok true nms e -> (vdepth (praw e) <= fuel)%nat -> NoDup (map fst (d ++ elem_entries path e)) -> dec_elem27 pidx fuel nms path (praw e) d = Ok (pitem e, d ++ elem_entries path e).
Proof.
  induction e as [ty id name page mid geo geo' pt x nm last|id name page h pages more mid geo geo' pt x nm kids after IH] using pelem_ind2; intros fuel nms path d Hok Hfu Hn.
  - inversion Hok as [? ? ? ? ? ? ? ? ? ? ? ? Ht Hne Hr|]; subst. destruct (Hr eq_refl) as [Hg Hp]. destruct fuel as [|fuel]; [cbn [praw vdepth] in Hfu; lia|].
    destruct (plain_known Ht) as (t & Et & Et' & Ep). cbn [praw dec_elem27 vlist bind vnth nth_error vstr]. rewrite Et'.
    set (G := VList (geo ++ pt :: geo')). set (NM := VList (x :: quoted name :: nm)).
    assert (E2 : vneg 2 (VStr ty :: VStr id :: mid ++ [G; NM; last]) = Ok NM).
    { replace (VStr ty :: VStr id :: mid ++ [G; NM; last]) with ((VStr ty :: VStr id :: mid ++ [G]) ++ [NM; last]) by (cbn [app]; rewrite <- app_assoc; reflexivity). apply (@vneg_at 1 _ _ [_] eq_refl). }
    assert (E3 : vneg 3 (VStr ty :: VStr id :: mid ++ [G; NM; last]) = Ok G) by (apply (@vneg_at 2 (VStr ty :: VStr id :: mid) _ [_; _] eq_refl)).
    rewrite E2. cbn [bind]. unfold NM at 1. cbn [vget nth_error bind]. change (vstr (quoted name)) with (@Ok (list N) (34 :: name ++ [34])). cbn [bind]. rewrite quoted_dec, E3. cbn [bind]. unfold G at 1, vneg_get. cbn [vlist bind]. rewrite (@vneg_at 4 geo pt geo' Hg). cbn [bind].
    rewrite (page_name_ok Hp). cbn [bind]. rewrite Ep, calc_three, calc_page. cbn [elem_entries pl_page pl_name pl_id] in *. cbn [pbare praw] in Hn. fold G NM in Hn. rewrite (@dset_end _ _ _ _ _ Hn). cbn [pitem pbare praw]. rewrite Et. reflexivity.
  - inversion Hok as [|? ? ? ? ? ? ? ? ? ? ? ? ? ? ? Hne Hr Hf Ha Hks]; subst. destruct (Hr eq_refl) as (Hg & Hp & Hpo). destruct fuel as [|fuel]; [cbn [praw vdepth] in Hfu; lia|].
    set (el := Panel id name page h pages more mid geo geo' pt x nm kids after) in *.
    assert (Hkd : forall k, In k kids -> (vdepth (praw k) <= fuel)%nat).
    { intros k Hk. assert (Q1 : (vdepth (praw k) < vdepth (VList (number (length kids) :: map praw kids ++ after)))%nat) by (apply depth_in; right; apply in_or_app; left; apply in_map, Hk).
      assert (Q2 : (vdepth (VList (number (length kids) :: map praw kids ++ after)) < vdepth (praw el))%nat) by (unfold el; cbn [praw]; apply depth_in; do 3 right; apply in_or_app; right; do 2 right; left; reflexivity). lia. }
    unfold el at 1. cbn [praw dec_elem27 vlist bind vnth nth_error vstr]. change (dget panel_id types27) with (Some n_panel). 
    set (P2 := VList (h :: VList (pages_raw pages) :: more)). set (LS := VList (number (length kids) :: map praw kids ++ after)). set (G := VList (geo ++ pt :: geo')). set (NM := VList (x :: quoted name :: nm)).
    assert (E2 : vneg 2 (VStr panel_id :: VStr id :: P2 :: mid ++ [G; NM; LS]) = Ok NM).
    { replace (VStr panel_id :: VStr id :: P2 :: mid ++ [G; NM; LS]) with ((VStr panel_id :: VStr id :: P2 :: mid ++ [G]) ++ [NM; LS]) by (cbn [app]; rewrite <- app_assoc; reflexivity). apply (@vneg_at 1 _ _ [_] eq_refl). }
    assert (E3 : vneg 3 (VStr panel_id :: VStr id :: P2 :: mid ++ [G; NM; LS]) = Ok G) by (apply (@vneg_at 2 (VStr panel_id :: VStr id :: P2 :: mid) _ [_; _] eq_refl)).
    rewrite E2. cbn [bind]. unfold NM at 1. cbn [vget nth_error bind]. change (vstr (quoted name)) with (@Ok (list N) (34 :: name ++ [34])). cbn [bind]. rewrite quoted_dec, E3. cbn [bind]. unfold G at 1, vneg_get. cbn [vlist bind]. rewrite (@vneg_at 4 geo pt geo' Hg). cbn [bind].
    rewrite (page_name_ok Hp). cbn [bind]. change (str_eqb n_panel n_panel) with true. cbv iota. rewrite calc_three, calc_page. set (key := sub (page_path path page) name). change (inner_path key) with (inside_of key).
    unfold P2 at 1. cbn [vget nth_error bind vlist]. unfold el in Hn at 1. cbn [elem_entries pl_page pl_name] in Hn. fold key in Hn. rewrite map_app in Hn. cbn [map fst] in Hn.
    assert (Hpe : NoDup (map fst (pages_entries (inside_of key) pages ++ flat_map (elem_entries (inside_of key)) kids))).
    { pose proof (nodup_snd _ _ Hn) as Q. inversion Q; subst. assumption. }
    rewrite dec_pages_ok; [|exact Hpo|rewrite <- pages_keys by exact Hpo; rewrite map_app in Hpe; exact (nodup_fst _ _ Hpe)]. cbn [bind Payload.vset nth_error set_nth]. unfold P2. cbn [Payload.vset nth_error set_nth bind].
    set (P2' := VList (h :: VList (pages_bare pages) :: more)).
    assert (El : VStr panel_id :: VStr id :: P2' :: mid ++ [G; NM; LS] = (VStr panel_id :: VStr id :: P2' :: mid ++ [G; NM]) ++ [LS]) by (cbn [app]; rewrite <- app_assoc; reflexivity).
    rewrite El. rewrite vneg_last. unfold LS at 1. cbn [bind vlist].
    rewrite (@dec_section_ok (dec_elem27 pidx fuel (pg_names pages) (inside_of key)) kids (inside_of key) after (pages_entries (inside_of key) pages)).
    + cbn [bind]. rewrite set_last. rewrite dupdate_dsets.
      assert (Eb : VList ((VStr panel_id :: VStr id :: P2' :: mid ++ [G; NM]) ++ [VList (kids_bare kids after)]) = pbare el) by (unfold el, pbare, G, NM, P2'; cbn [app]; rewrite <- app_assoc; reflexivity).
      rewrite Eb. change (elem_entries path el) with ((key, EElem id (page_path path page) (pbare el) (dget id pidx)) :: pages_entries (inside_of key) pages ++ flat_map (elem_entries (inside_of key)) kids).
      rewrite dset_new; [|apply NoDup_remove_2 in Hn; intros Hi; apply Hn, in_or_app; left; exact Hi]. rewrite dsets_new; [|rewrite map_app, map_app, <- app_assoc; exact Hn]. rewrite <- app_assoc. reflexivity.
    + intros k d' Hk Hd. rewrite Forall_forall in IH, Hks. apply (IH k Hk); [apply Hks, Hk|apply Hkd, Hk|exact Hd].
    + exact Hpe.
Qed.
End Dec.
