(** The elements of ordinary forms: builds and round trips. *)
From Coq Require Import Lia Permutation.
From Verif Require Import PyBase PyInt Brace Header CalcOffset Container UpdateDictProofs HeaderProofs Spec_Misc MiscProofs MetaObjBase FormCode Payload MetaObj FormElem Spec_FormElem FormElemBase FormElemProofs Form27 Spec_Form27 Form27Proofs Form27Dec.
Set Implicit Arguments.
Open Scope list_scope.
Open Scope N_scope.

Lemma names27_get (ps : list prop27) : (forall p, In p ps -> exists s, p7_id p = VStr s /\ s <> []) ->
  forall d, (forall n v, dget n d = Some v -> truthy v = true) -> forall n, ((exists p, In p ps /\ p7_name p = n) \/ (exists v, dget n d = Some v)) ->
  exists v, dget n (fold_left (fun d p => dset (p7_name p) (p7_id p) d) ps d) = Some v /\ truthy v = true.
Proof.
  induction ps as [|q ps IH]; intros Hid d Hd n Hn; cbn [fold_left].
  - destruct Hn as [(p & [] & _)|(v & E)]. exists v. split; [exact E|apply (Hd n), E].
  - apply IH.
    + intros p Hp. apply Hid. right. exact Hp.
    + intros m v E. destruct (str_eq_dec m (p7_name q)) as [-> |Hm].
      * rewrite dget_dset_same in E. injection E as <-. destruct (Hid q (or_introl eq_refl)) as (s & -> & Hs). destruct s; [congruence|reflexivity].
      * rewrite dget_dset_other in E by congruence. apply (Hd m), E.
    + destruct (str_eq_dec n (p7_name q)) as [-> |Hm].
      * right. exists (p7_id q). apply dget_dset_same.
      * destruct Hn as [(p & [<-|Hp] & En)|(v & E)]; [congruence|left; exists p; auto|right; exists v; rewrite dget_dset_other by congruence; exact E].
Qed.
Lemma build27 fe raw' raw pages es after : described27 fe raw' raw pages es after -> elems27_encode fe raw' = Ok raw.
Proof.
  intros [Ht (v0 & a0 & a1 & h & more & prest & r1 & b0 & b1 & sec & sec' & r2 & rest & -> & -> & Hs) Hk Hi (Hfit & Hels & Haft) Hid].
  unfold elems27_encode. cbn [vnth nth_error bind vget vlist].
  assert (Es : props27_enc (f7_props fe) sec' = Ok sec).
  { destruct Hs as [(ps & vmore & -> & Hps & ->)|(c & vmore & -> & Hc & ->)]; unfold props27_enc; cbn [vnth nth_error bind].
    - change (is_str (VStr kept_apart) kids_mark) with true. cbn [skipn]. destruct (f7_props fe) as [[|p r]|]; subst ps; try reflexivity. 
    - assert (E : is_str c kids_mark = false). { destruct c; try reflexivity. cbn [is_str]. destruct (str_eqb s kids_mark) eqn:E; [|reflexivity]. apply str_eqb_spec in E. subst. contradiction Hc. reflexivity. }
      rewrite E. reflexivity. }
  rewrite Es. cbn [bind Payload.vset nth_error set_nth vnth vlist vget].
  set (ps := match f7_props fe with Some l => l | None => [] end) in *.
  assert (Hk' : forall key k, In (key, k) (kept_form pages es) -> kept_in (names27 (f7_props fe)) (f7_data fe) key k).
  { intros key k H. specialize (Hk key k H). destruct k as [n r|ns|q e]; [exact Hk|exact Hk|]. destruct Hk as (id & page & prop & E & Hp). exists id, page, prop. split; [exact E|].
    destruct prop as [[|c n]|]; try exact Logic.I. destruct Hp as [Hp|Hp]; [discriminate|]. unfold names27. fold ps.
    apply names27_get; [exact Hid|intros ? ? E'; discriminate|left; exact Hp]. }
  unfold kept_form in Hk'.
  rewrite (@enc_pages_ok (f7_data fe) [] pages Hfit); [|eapply kept_pages_in; [intros key k H; apply Hk', in_or_app; left; exact H|apply Hi; left; reflexivity]].
  cbn [bind Payload.vset nth_error set_nth vnth vlist vget]. rewrite Ht.
  rewrite (@enc_elems_ok (names27 (f7_props fe)) (f7_data fe) (pg_names pages)); [|exact Hels|intros key k H; apply Hk', in_or_app; right; exact H|intros q p H; apply Hi; right; exact H].
  cbn [bind]. rewrite put_elems_ok by exact Haft. cbn [bind Payload.vset nth_error set_nth]. reflexivity.
Qed.

(** ** Properties *)
Definition prop_of27 (p : list N * list N) (v : val) : prop27 := mkprop27 (snd p) (VStr (fst p)) v.
Definition props_of27 (props : list (list N * list N)) (vs : list val) : list prop27 := map (fun x => prop_of27 (fst x) (snd x)) (combine props vs).
Lemma props_read at_ props vs : Forall2 (prop27_is at_) props vs -> mapm (prop27_dec at_) vs = Ok (props_of27 props vs).
Proof.
  induction 1 as [|p v props vs (l & i & -> & E) H IH]; [reflexivity|]. cbn [mapm]. unfold prop27_dec at 1, item_name. cbn [vget]. rewrite E. cbn [bind vstr]. change (vstr (quoted (snd p))) with (@Ok (list N) (34 :: snd p ++ [34])). cbn [bind]. rewrite quoted_dec.
  cbn [vget nth_error bind]. rewrite IH. reflexivity.
Qed.
Lemma pairs_len (A B : Type) (R : A -> B -> Prop) l m : Forall2 R l m -> length l = length m.
Proof. induction 1; cbn; congruence. Qed.
Lemma section_read at_ props vs more : Forall2 (prop27_is at_) props vs ->
  props27_dec at_ (number (length vs) :: vs ++ more) = Ok ((match vs with [] => number 0 | _ => VStr kept_apart end) :: more, match vs with [] => None | _ => Some (props_of27 props vs) end).
Proof.
  intros H. unfold props27_dec. cbn [vnth nth_error bind]. rewrite number_int. cbn [bind]. destruct vs as [|v vs]; [reflexivity|].
  replace (Z.of_nat (length (v :: vs)) =? 0)%Z with false by (cbn [length]; lia). replace (Z.of_nat (length (v :: vs)) <? 0)%Z with false by lia. rewrite Nat2Z.id.
  assert (E : take_at 1 (length (v :: vs)) (number (length (v :: vs)) :: (v :: vs) ++ more) = Ok (v :: vs)).
  { unfold take_at. replace (_ <? _)%nat with false by (symmetry; apply Nat.ltb_ge; cbn [length]; rewrite app_length; cbn [length]; lia). cbn [skipn]. rewrite firstn_app, firstn_all, Nat.sub_diag. cbn [firstn]. rewrite app_nil_r. reflexivity. }
  rewrite E. cbn [bind]. rewrite (props_read H). cbn [bind]. do 2 f_equal. f_equal.
  change (skipn (S (length (v :: vs))) (number (length (v :: vs)) :: (v :: vs) ++ more)) with (skipn (length (v :: vs)) ((v :: vs) ++ more)). rewrite skipn_app, skipn_all, Nat.sub_diag. reflexivity.
Qed.
(** the names of properties by ids, the names of the properties of elements by their ids *)
Definition ids27 (props : list (list N * list N)) : list (list N * list N) := dsets [] props.
Definition links27 (ids : list (list N * list N)) (links d : list (list N * list N)) : list (list N * list N) :=
  fold_left (fun d (s : list N * list N) => match dget (snd s) ids with Some n => dset (fst s) n d | None => d end) links d.
Lemma ids_read props vs : length props = length vs -> prop_ids (props_of27 props vs) = Ok (ids27 props).
Proof.
  unfold prop_ids, ids27. generalize (@nil (list N * list N)). revert vs. induction props as [|p props IH]; intros [|v vs] d H; try discriminate; [reflexivity|]. cbn [props_of27 combine map fold_left bind]. cbn [prop_of27 p7_id p7_name id_str bind fst snd].
  injection H as H. rewrite (IH vs _ H). reflexivity.
Qed.
Lemma links_read ids links ls : Forall2 source_is links ls -> forall d more, index_sources ids (length ls) (ls ++ more) d = Ok (links27 ids links d).
Proof.
  induction 1 as [|s v links ls (x & i & r & r' & ->) H IH]; intros d more; [reflexivity|]. cbn [length app index_sources vget nth_error bind id_str]. destruct (dget (snd s) ids) as [n|] eqn:E; cbn [id_str bind]; rewrite IH; unfold links27; cbn [fold_left]; rewrite E; reflexivity.
Qed.
Definition index27 (props links : list (list N * list N)) : list (list N * list N) := match props with [] => [] | _ => links27 (ids27 props) links [] end.
Lemma index_read props vs links src at_ : Forall2 (prop27_is at_) props vs -> (props = [] /\ links = [] \/ exists ls lmore, src = VList (number (length ls) :: ls ++ lmore) /\ Forall2 source_is links ls) ->
  sources_index (match vs with [] => None | _ => Some (props_of27 props vs) end) src = Ok (index27 props links).
Proof.
  intros H Hs. pose proof (pairs_len H) as Hl. destruct H as [|p v props vs Hp H]; [reflexivity|]. destruct Hs as [[? _]|(ls & lmore & -> & Hs)]; [discriminate|].
  unfold sources_index. cbn [props_of27 combine map]. change (prop_of27 (fst (p, v)) (snd (p, v)) :: map (fun x => prop_of27 (fst x) (snd x)) (combine props vs)) with (props_of27 (p :: props) (v :: vs)).
  rewrite (ids_read _ _ Hl). cbn [bind vget nth_error]. rewrite number_int. cbn [bind index27]. destruct ls as [|l ls]; [inversion Hs; subst; reflexivity|].
  replace (Z.of_nat (length (l :: ls)) =? 0)%Z with false by (cbn [length]; lia). replace (Z.of_nat (length (l :: ls)) <? 0)%Z with false by lia. rewrite Nat2Z.id. cbn [vlist bind skipn]. apply (links_read _ Hs).
Qed.
Lemma ids_names (props : list (list N * list N)) : forall d n i, dget i (dsets d props) = Some n -> In n (map snd props) \/ dget i d = Some n.
Proof.
  induction props as [|[j m] props IH]; intros d n i H; [right; exact H|]. unfold dsets in H. cbn [fold_left fst snd] in H. destruct (IH _ _ _ H) as [H'|H']; [left; right; exact H'|].
  destruct (str_eq_dec i j) as [-> |Hj]; [rewrite dget_dset_same in H'; injection H' as ->; left; left; reflexivity|rewrite dget_dset_other in H' by congruence; right; exact H'].
Qed.
Lemma index_names props links i n : dget i (index27 props links) = Some n -> In n (map snd props).
Proof.
  unfold index27. destruct props as [|p props]; [discriminate|]. generalize (p :: props). clear p props. intros props.
  assert (G : forall links d, (forall i n, dget i d = Some n -> In n (map snd props)) -> forall i n, dget i (links27 (ids27 props) links d) = Some n -> In n (map snd props)).
  { clear. induction links as [|s links IH]; intros d Hd i n H; [apply (Hd i), H|]. unfold links27 in H. cbn [fold_left] in H. revert H. apply IH. intros j m H. destruct (dget (snd s) (ids27 props)) as [q|] eqn:E; [|apply (Hd j), H].
    destruct (str_eq_dec j (fst s)) as [-> |Hj]; [|rewrite dget_dset_other in H by congruence; apply (Hd j), H]. rewrite dget_dset_same in H. injection H as <-. destruct (ids_names _ _ _ E) as [H|H]; [exact H|discriminate]. }
  apply G. intros ? ? E. discriminate.
Qed.

(** ** Extraction *)
Definition form_entries (props links : list (list N * list N)) (pages : ppages) (es : list pelem) : list (list N * entry27) :=
  pages_entries [] pages ++ flat_map (elem_entries (index27 props links) []) es.
Lemma form_keys props links pages es : pages_ok pages -> Forall (pelem_ok true (pg_names pages)) es -> map fst (form_entries props links pages es) = map fst (kept_form pages es).
Proof. intros Hp He. unfold form_entries, kept_form. rewrite !map_app, pages_keys by exact Hp. f_equal. eapply elems_keys. exact He. Qed.
Lemma kept_pages_entries path p key k : pages_ok p -> In (key, k) (kept_pages path p) ->
  match k with KPage _ r => exists f i, In (key, EPage f (VList r) i) (pages_entries path p) | KPages ns => In (key, EPages ns) (pages_entries path p) | KElem _ _ => False end.
Proof.
  intros Hp H. unfold kept_pages in H. apply in_app_or in H. destruct H as [H|[H|[]]].
  - apply in_map_iff in H. destruct H as ([n r] & E & H). cbn [fst snd] in E. injection E as <- <-. 
    assert (Q : exists i, In ((n, r), i) (combine (pg_list p) (infos p))).
    { pose proof (infos_len Hp) as Hl. revert Hl H. generalize (infos p). generalize (pg_list p). clear. induction l as [|x l IH]; intros [|i m] Hl H; try discriminate; [destruct H|]. destruct H as [-> |H]; [exists i; left; reflexivity|]. injection Hl as Hl. destruct (IH m Hl H) as (j & Hj). exists j. right. exact Hj. }
    destruct Q as (i & Q). exists (page_format r), (Some i). unfold pages_entries. apply in_or_app. left. apply in_map_iff. exists ((n, r), i). auto.
  - injection H as <- <-. unfold pages_entries. apply in_or_app. right. left. reflexivity.
Qed.
Section E.
Variable pidx : list (list N * list N).
Definition entry_kept (d : list (list N * entry27)) (key : list N) (k : kept) : Prop :=
  match k with KPage _ r => exists f i, In (key, EPage f (VList r) i) d | KPages ns => In (key, EPages ns) d | KElem q e => In (key, EElem (pl_id e) q (pbare e) (dget (pl_id e) pidx)) d end.
Lemma entry_more d d' key k : (forall x, In x d -> In x d') -> entry_kept d key k -> entry_kept d' key k.
Proof. intros H. destruct k; cbn [entry_kept]; [intros (f & i & Q); exists f, i; apply H, Q|intros Q; apply H, Q|intros Q; apply H, Q]. Qed.
Lemma kept_elem_entries e : forall nms path key k, pelem_ok true nms e -> In (key, k) (kept_elem path e) -> entry_kept (elem_entries pidx path e) key k.
Proof.
  induction e as [ty id name page mid geo geo' pt x nm last|id name page h pages more mid geo geo' pt x nm kids after IH] using pelem_ind2; intros nms path key k Hok H.
  - destruct H as [H|[]]. injection H as <- <-. left. reflexivity.
  - inversion Hok as [|? ? ? ? ? ? ? ? ? ? ? ? ? ? ? Hne Hr Hf Ha Hks]; subst. destruct (Hr eq_refl) as (_ & _ & Hpo). destruct H as [H|H]; [injection H as <- <-; left; reflexivity|].
    set (el := Panel id name page h pages more mid geo geo' pt x nm kids after) in *. cbn [pl_page pl_name el] in H. set (inner := inside_of (sub (page_path path page) name)) in *.
    apply in_app_or in H. destruct H as [H|H].
    + apply (@entry_more (pages_entries inner pages)); [intros y Hy; right; apply in_or_app; left; exact Hy|]. pose proof (@kept_pages_entries inner pages key k Hpo H) as Q. destruct k; [exact Q|exact Q|destruct Q].
    + apply in_flat_map in H. destruct H as (c & Hc & H). rewrite Forall_forall in IH, Hks. apply (@entry_more (elem_entries pidx inner c)); [|apply (IH c Hc (pg_names pages) inner key k (Hks c Hc) H)].
      intros y Hy. right. apply in_or_app. right. apply in_flat_map. exists c. auto.
Qed.
Lemma panel_entries e : forall nms path q p, pelem_ok true nms e -> In (q, p) (panels path e) -> pages_ok p /\ forall y, In y (pages_entries q p) -> In y (elem_entries pidx path e).
Proof.
  induction e as [ty id name page mid geo geo' pt x nm last|id name page h pages more mid geo geo' pt x nm kids after IH] using pelem_ind2; intros nms path q p Hok H; [destruct H|].
  inversion Hok as [|? ? ? ? ? ? ? ? ? ? ? ? ? ? ? Hne Hr Hf Ha Hks]; subst. destruct (Hr eq_refl) as (_ & _ & Hpo). cbn [panels elem_entries pl_page pl_name] in *. set (inner := inside_of _) in *.
  destruct H as [H|H].
  - injection H as <- <-. split; [exact Hpo|]. intros y Hy. right. apply in_or_app. left. exact Hy.
  - apply in_flat_map in H. destruct H as (c & Hc & H). rewrite Forall_forall in IH, Hks. destruct (IH c Hc (pg_names pages) inner q p (Hks c Hc) H) as [G1 G2]. split; [exact G1|].
    intros y Hy. right. apply in_or_app. right. apply in_flat_map. exists c. split; [exact Hc|apply G2, Hy].
Qed.
End E.
Lemma kept_entries props links pages es key k : pages_ok pages -> Forall (pelem_ok true (pg_names pages)) es -> In (key, k) (kept_form pages es) -> entry_kept (index27 props links) (form_entries props links pages es) key k.
Proof.
  intros Hp He H. unfold kept_form in H. apply in_app_or in H. destruct H as [H|H].
  - apply (@entry_more _ (pages_entries [] pages)); [intros y Hy; apply in_or_app; left; exact Hy|]. pose proof (@kept_pages_entries [] pages key k Hp H) as Q. destruct k; [exact Q|exact Q|destruct Q].
  - apply in_flat_map in H. destruct H as (c & Hc & H). rewrite Forall_forall in He. apply (@entry_more _ (elem_entries (index27 props links) [] c)); [|eapply kept_elem_entries; [apply He, Hc|exact H]].
    intros y Hy. apply in_or_app. right. apply in_flat_map. exists c. auto.
Qed.
Lemma infos_each props links pages es : pages_ok pages -> Forall (pelem_ok true (pg_names pages)) es -> NoDup (map fst (form_entries props links pages es)) ->
  forall q p, In (q, p) (([], pages) :: flat_map (panels []) es) -> pages_ok p /\ map (fun n => info_of (form_entries props links pages es) (sub q n)) (pg_names p) = infos p.
Proof.
  intros Hp He Hn q p H. assert (Hq : pages_ok p /\ forall y, In y (pages_entries q p) -> In y (form_entries props links pages es)).
  { destruct H as [H|H]; [injection H as <- <-; split; [exact Hp|intros y Hy; apply in_or_app; left; exact Hy]|]. apply in_flat_map in H. destruct H as (c & Hc & H). rewrite Forall_forall in He.
    destruct (@panel_entries (index27 props links) c _ [] q p (He c Hc) H) as [G1 G2]. split; [exact G1|]. intros y Hy. apply in_or_app. right. apply in_flat_map. exists c. split; [exact Hc|apply G2, Hy]. }
  destruct Hq as [Hpo Hin]. split; [exact Hpo|]. unfold pg_names. pose proof (infos_len Hpo) as Hl.
  assert (Hin' : forall y, In y (full q (pg_list p) (infos p)) -> In y (form_entries props links pages es)) by (intros y Hy; apply Hin; unfold pages_entries; apply in_or_app; left; exact Hy).
  revert Hl Hin'. generalize (infos p). generalize (pg_list p). set (D := form_entries props links pages es) in *. clearbody D. clear -Hn.
  induction l as [|[n r] l IH]; intros [|i m] Hl Hin; try discriminate; [reflexivity|]. cbn [map fst]. f_equal.
  - unfold info_of. rewrite (@dget_nodup _ (sub q n) (EPage (page_format r) (VList r) (Some i)) D Hn); [reflexivity|]. apply Hin. left. reflexivity.
  - apply IH; [injection Hl as Hl; exact Hl|]. intros y Hy. apply Hin. right. exact Hy.
Qed.
Lemma infos_found props links pages es : pages_ok pages -> Forall (pelem_ok true (pg_names pages)) es -> NoDup (map fst (form_entries props links pages es)) ->
  forall q p, In (q, p) (([], pages) :: flat_map (panels []) es) -> concat (map (fun n => info_of (form_entries props links pages es) (sub q n)) (pg_names p)) = pg_info p.
Proof. intros Hp He Hn q p H. destruct (@infos_each props links pages es Hp He Hn q p H) as [Ho ->]. apply infos_concat, Ho. Qed.
Lemma fits nms e : pelem_ok true nms e -> pelem_ok false nms e.
Proof.
  revert nms. induction e as [ty id name page mid geo geo' pt x nm last|id name page h pages more mid geo geo' pt x nm kids after IH] using pelem_ind2; intros nms Hok.
  - inversion Hok; subst. constructor; [assumption|assumption|discriminate].
  - inversion Hok as [|? ? ? ? ? ? ? ? ? ? ? ? ? ? ? Hne Hr Hf Ha Hks]; subst. constructor; [assumption|discriminate|assumption|assumption|]. rewrite Forall_forall in *. intros c Hc. apply IH; [exact Hc|apply Hks, Hc].
Qed.
Lemma read27 at_ raw props links pages es after : form27_is at_ raw props links pages es after ->
  exists raw' ps, elems27_decode at_ raw = Ok (raw', mkelems27 ps (map pitem es) (form_entries props links pages es)) /\
    match ps with Some l => l <> [] /\ map (fun p => (p7_id p, p7_name p)) l = map (fun p : list N * list N => (VStr (fst p), snd p)) props | None => props = [] end /\
    described27 (mkelems27 ps (map pitem es) (form_entries props links pages es)) raw' raw pages es after.
Proof.
  intros [(v0 & a0 & a1 & h & more & prest & r1 & b0 & b1 & vs & vmore & src & r2 & rest & -> & Hprops & Hsrc) Hids Hpages Hels Haft Honce].
  rewrite <- (@form_keys props links pages es Hpages Hels) in Honce. pose proof (pairs_len Hprops) as Hlen.
  set (ps := match vs with [] => None | _ => Some (props_of27 props vs) end).
  assert (Hps : match ps with Some l => l | None => [] end = props_of27 props vs) by (unfold ps; destruct props, vs; try discriminate; reflexivity).
  assert (Hraws : map p7_raw (props_of27 props vs) = vs).
  { clear -Hlen. unfold props_of27. rewrite map_map. cbn [p7_raw prop_of27]. revert vs Hlen. induction props as [|p props IH]; intros [|v vs] H; try discriminate; [reflexivity|]. cbn [combine map snd]. f_equal. apply IH. injection H as H. exact H. }
  assert (Hnm : map (fun p => (p7_id p, p7_name p)) (props_of27 props vs) = map (fun p : list N * list N => (VStr (fst p), snd p)) props).
  { clear -Hlen. unfold props_of27. rewrite map_map. cbn [prop_of27 p7_id p7_name]. revert vs Hlen. induction props as [|p props IH]; intros [|v vs] H; try discriminate; [reflexivity|]. cbn [combine map fst]. f_equal. apply IH. injection H as H. exact H. }
  eexists. exists ps. split; [|split].
  - unfold elems27_decode. cbn [vnth nth_error bind vget vlist]. rewrite (section_read _ Hprops). fold ps. cbn [bind Payload.vset nth_error set_nth vnth vget].
    change (is_str (VStr panel_id) u_panel) with true. cbn [negb]. unfold ps. rewrite (@index_read props vs links src at_ Hprops Hsrc). fold ps. cbn [bind vlist nth_error vnth].
    unfold form_entries in *. rewrite map_app in Honce.
    rewrite dec_pages_ok; [|exact Hpages|rewrite <- pages_keys by exact Hpages; exact (nodup_fst _ _ Honce)]. cbn [bind Payload.vset nth_error set_nth vnth vlist].
    rewrite (@dec_section_ok (index27 props links) _ es [] after (pages_entries [] pages)).
    + cbn [bind Payload.vset nth_error set_nth]. reflexivity.
    + intros e d He Hd. apply dec_elem_ok; [rewrite Forall_forall in Hels; apply Hels, He| |exact Hd].
      apply Nat.lt_le_incl, depth_in. right. apply in_or_app. left. apply in_map, He.
    + rewrite map_app. exact Honce.
  - unfold ps. destruct vs as [|v vs]; [destruct props; [reflexivity|discriminate]|]. destruct props as [|p props]; [discriminate|]. split; [discriminate|exact Hnm].
  - constructor; cbn [f7_tree f7_props f7_data].
    + reflexivity.
    + exists v0, a0, a1, h, more, prest, r1, b0, b1, (number (length vs) :: vs ++ vmore), ((match vs with [] => number 0 | _ => VStr kept_apart end) :: vmore), (src :: r2), rest. split; [reflexivity|]. split; [reflexivity|].
      destruct vs as [|v vs]; [right; exists (number 0), vmore; split; [reflexivity|]; split; [discriminate|reflexivity]|].
      left. exists (props_of27 props (v :: vs)), vmore. split; [reflexivity|]. split; [exact Hps|]. rewrite Hraws. unfold props_of27 at 1. rewrite map_length, combine_length. rewrite Hlen, Nat.min_id. reflexivity.
    + assert (Hkept : forall key en, In (key, en) (form_entries props links pages es) -> dget key (form_entries props links pages es) = Some en) by (intros key en H; apply dget_nodup; [exact Honce|exact H]).
      assert (Hn27 : forall i n, dget i (index27 props links) = Some n -> n = [] \/ exists p, In p (props_of27 props vs) /\ p7_name p = n).
      { intros i n E. right. apply index_names in E. apply in_map_iff in E. destruct E as ([i' n'] & En & Hi). cbn [snd] in En. subst n'.
        assert (Q : In (VStr i', n) (map (fun p => (p7_id p, p7_name p)) (props_of27 props vs))) by (rewrite Hnm; apply in_map_iff; exists (i', n); auto).
        apply in_map_iff in Q. destruct Q as (p & Ep & Hp). injection Ep as _ Ep. exists p. auto. }
      rewrite Hps. intros key k H. pose proof (@kept_entries props links pages es key k Hpages Hels H) as Q. destruct k as [n r|ns|q e].
      * destruct Q as (f & i & Q). exists f, i. apply Hkept, Q.
      * apply Hkept, Q.
      * eexists _, _, _. split; [apply Hkept, Q|]. destruct (dget (pl_id e) (index27 props links)) as [n|] eqn:E; [apply (Hn27 _ _ E)|exact Logic.I].
    + intros q p H. apply (@infos_found props links pages es Hpages Hels Honce q p H).
    + split; [apply Hpages|]. split; [|exact Haft]. eapply Forall_impl; [|exact Hels]. intros e. apply fits.
    + rewrite Hps. intros p Hp. assert (Q : In (p7_id p, p7_name p) (map (fun p => (p7_id p, p7_name p)) (props_of27 props vs))) by (apply in_map_iff; exists p; auto).
      rewrite Hnm in Q. apply in_map_iff in Q. destruct Q as ([i n] & E & Hi). cbn [fst snd] in E. injection E as Ei _. exists i. split; [symmetry; exact Ei|]. rewrite Forall_forall in Hids. exact (Hids _ Hi).
Qed.
(** ** Links *)
Lemma ids_get props i n : NoDup (map fst props) -> (dget i (ids27 props) = Some n <-> In (i, n) props).
Proof.
  intros H. unfold ids27. rewrite dsets_new by exact H. cbn [app]. split; [apply dget_in|]. intros Hi. apply dget_nodup; [exact H|exact Hi].
Qed.
Lemma index_links props links i n : NoDup (map fst props) -> NoDup (map fst links) -> (dget i (index27 props links) = Some n <-> exists p, In (i, p) links /\ In (p, n) props).
Proof.
  intros Hp Hl. unfold index27. destruct props as [|p0 props0] eqn:E; [split; [discriminate|intros (p & _ & [])]|]. rewrite <- E in *. clear E p0 props0.
  assert (G : forall links d, NoDup (map fst links) -> (forall x, In x (map fst links) -> dget x d = None) ->
    (dget i (links27 (ids27 props) links d) = Some n <-> (exists p, In (i, p) links /\ In (p, n) props) \/ dget i d = Some n)).
  { clear links Hl. induction links as [|[x p] links IH]; intros d Hl Hd.
    - split; [intros H; right; exact H|intros [(p & [] & _)|H]; exact H].
    - cbn [map fst] in Hl, Hd. inversion Hl as [|? ? Hx Hr]; subst.
      set (d' := match dget p (ids27 props) with Some m => dset x m d | None => d end). change (links27 (ids27 props) ((x, p) :: links) d) with (links27 (ids27 props) links d'). rewrite IH; [|exact Hr|].
      + split.
        * intros [(q & H1 & H2)|H]; [left; exists q; split; [right; exact H1|exact H2]|]. unfold d' in H. destruct (dget p (ids27 props)) as [m|] eqn:E; [|right; exact H].
          destruct (str_eq_dec i x) as [-> |Hix]; [rewrite dget_dset_same in H; injection H as ->; left; exists p; split; [left; reflexivity|apply ids_get; assumption]|rewrite dget_dset_other in H by congruence; right; exact H].
        * intros [(q & [H1|H1] & H2)|H].
          -- injection H1 as -> ->. right. unfold d'. apply (@ids_get props q n Hp) in H2. rewrite H2. apply dget_dset_same.
          -- left. exists q. auto.
          -- right. unfold d'. assert (Hix : i <> x) by (intros ->; rewrite Hd in H by (left; reflexivity); discriminate). destruct (dget p (ids27 props)); [rewrite dget_dset_other by congruence|]; exact H.
      + intros y Hy. unfold d'. assert (Hyx : y <> x) by (intros ->; contradiction). destruct (dget p (ids27 props)); [rewrite dget_dset_other by congruence|]; apply Hd; right; exact Hy. }
  rewrite G; [|exact Hl|intros x _; reflexivity]. split; [intros [H|H]; [exact H|discriminate]|intros H; left; exact H].
Qed.
(** a build of a form whose pages are not in the file of elements *)
Lemma no_pages fe raw : dget pages_word (f7_data fe) = None -> exists e, elems27_encode fe raw = Err e.
Proof.
  intros H. destruct (elems27_encode fe raw) as [r|e] eqn:E; [exfalso|eauto]. unfold elems27_encode in E.
  repeat match type of E with (bind ?x _) = Ok _ => let Hx := fresh in destruct x eqn:Hx; cbn [bind] in E; [|discriminate] end.
  match goal with Hx : enc_pages _ [] _ = Ok _ |- _ => unfold enc_pages in Hx; change (calc_id [[]; s_pages]) with pages_word in Hx; rewrite H in Hx; rename Hx into Q end.
  repeat match type of Q with (bind ?x _) = Ok _ => destruct x; cbn [bind] in Q; [|discriminate] end. discriminate.
Qed.

Theorem through27 at_ raw props links pages es after : form27_is at_ raw props links pages es after ->
  exists raw' fe, elems27_decode at_ raw = Ok (raw', fe) /\ f7_tree fe = map pitem es /\ map fst (f7_data fe) = map fst (kept_form pages es) /\
    (forall key k, In (key, k) (kept_form pages es) -> dget key (f7_data fe) <> None /\
       match k with
       | KPage _ r => exists f i, dget key (f7_data fe) = Some (EPage f (VList r) (Some i))
       | KPages names => dget key (f7_data fe) = Some (EPages names)
       | KElem path e => exists prop, dget key (f7_data fe) = Some (EElem (pl_id e) path (pbare e) prop) /\
           (NoDup (map fst props) -> NoDup (map fst links) -> forall n, prop = Some n <-> linked props links (pl_id e) n)
       end) /\
    (forall path p, In (path, p) (([], pages) :: flat_map (panels []) es) -> map (fun n => info_of (f7_data fe) (sub path n)) (pg_names p) = infos p /\ concat (infos p) = pg_info p) /\
    map (fun p => (p7_id p, p7_name p)) (match f7_props fe with Some l => l | None => [] end) = map (fun p : list N * list N => (VStr (fst p), snd p)) props /\
    elems27_encode fe raw' = Ok raw.
Proof.
  intros H. pose proof H as [_ _ Hpages Hels _ Honce]. destruct (read27 H) as (raw' & ps & E & Hps & Hd). eexists _, _. split; [exact E|]. cbn [f7_tree f7_data f7_props].
  pose proof (@form_keys props links pages es Hpages Hels) as Hk. rewrite <- Hk in Honce.
  assert (Hkept : forall key en, In (key, en) (form_entries props links pages es) -> dget key (form_entries props links pages es) = Some en) by (intros key en Hi; apply dget_nodup; [exact Honce|exact Hi]).
  split; [reflexivity|]. split; [exact Hk|]. split; [|split; [|split; [|eapply build27; exact Hd]]].
  - intros key k Hi. pose proof (@kept_entries props links pages es key k Hpages Hels Hi) as Q.
    assert (Hs : match k with KPage _ r => exists f i, dget key (form_entries props links pages es) = Some (EPage f (VList r) (Some i)) | _ => True end).
    { destruct k as [n r|ns|q e]; try exact Logic.I. destruct Q as (f & i & Q). pose proof (Hkept _ _ Q) as G. rewrite G. exists f. destruct i as [i|]; [exists i; reflexivity|exfalso].
      (* the entries of pages have their records *)
      revert Q. clear. intros Q. unfold form_entries in Q. apply in_app_or in Q.
      assert (Gp : forall path p, ~ In (key, EPage f (VList r) None) (pages_entries path p)).
      { intros path p Hi. unfold pages_entries in Hi. apply in_app_or in Hi. destruct Hi as [Hi|[Hi|[]]]; [|discriminate]. apply in_map_iff in Hi. destruct Hi as (x & Ex & _). discriminate. }
      destruct Q as [Q|Q]; [exact (Gp _ _ Q)|]. apply in_flat_map in Q. destruct Q as (e & _ & Q).
      revert Q. generalize (@nil N). induction e as [ty id name page mid geo geo' pt x nm last|id name page h pages0 more mid geo geo' pt x nm kids after IH] using pelem_ind2; intros path Q.
      - destruct Q as [Q|[]]. discriminate.
      - cbn [elem_entries] in Q. destruct Q as [Q|Q]; [discriminate|]. apply in_app_or in Q. destruct Q as [Q|Q]; [exact (Gp _ _ Q)|]. apply in_flat_map in Q. destruct Q as (c & Hc & Q). rewrite Forall_forall in IH. exact (IH c Hc _ Q). }
    destruct k as [n r|ns|q e].
    + destruct Hs as (f & i & Hs). split; [rewrite Hs; discriminate|]. exists f, i. exact Hs.
    + cbn [entry_kept] in Q. rewrite (Hkept _ _ Q). split; [discriminate|reflexivity].
    + cbn [entry_kept] in Q. rewrite (Hkept _ _ Q). split; [discriminate|]. eexists. split; [reflexivity|]. intros Hp Hl n. apply index_links; assumption.
  - intros path p Hi. destruct (@infos_each props links pages es Hpages Hels Honce path p Hi) as [Ho ->]. split; [reflexivity|apply infos_concat, Ho].
  - destruct ps as [l|]; [apply Hps|subst props; reflexivity].
Qed.
