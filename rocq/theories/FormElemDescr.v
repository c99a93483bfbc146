(** Managed forms: a build makes the form that the sources describe. *)
From Coq Require Import Lia Permutation.
From Verif Require Import PyBase PyInt Brace Header CalcOffset Container HeaderProofs Spec_Misc MiscProofs MetaObjBase FormCode Payload MetaObj FormElem Spec_FormElem FormElemBase FormElemProofs FormElemList FormElemMain.
Set Implicit Arguments.
Open Scope list_scope.
Open Scope N_scope.

(** ** Sections *)
Lemma made_forall (A B : Type) (made : A -> B -> val -> Prop) (enc : B -> res val) : (forall x y v, made x y v -> enc y = Ok v) -> forall xs ys vs, length xs = length ys -> length vs = length ys ->
  (forall i x y v, nth_error xs i = Some x -> nth_error ys i = Some y -> nth_error vs i = Some v -> made x y v) -> Forall2 (fun v y => enc y = Ok v) vs ys.
Proof.
  intros He. induction xs as [|x xs IH]; intros [|y ys] [|v vs] H1 H2 H; try discriminate; [constructor|]. constructor; [eapply He, (H 0%nat); reflexivity|]. apply IH; [cbn in H1; lia|cbn in H2; lia|]. intros i. apply (H (S i)).
Qed.
Lemma section_builds (A B : Type) (made : A -> B -> val -> Prop) (enc : B -> res val) items xs old new : (forall x y v, made x y v -> enc y = Ok v) -> section_made made items xs old new ->
  exists used, length xs = length (match used with Some l => l | None => [] end) /\ (forall i x y, nth_error xs i = Some x -> nth_error (match used with Some l => l | None => [] end) i = Some y -> exists v, made x y v) /\
    forall r i, nth_error r i = old -> list_enc enc i items r = Ok (put i new r, used).
Proof.
  intros He [h more xs' ys vs Hi Hl1 Hl2 Hm| |h c l Hc].
  - exists items. rewrite Hi. split; [exact Hl1|]. split.
    { intros i x y Hx Hy. destruct (nth_error vs i) as [v|] eqn:Ev; [exists v; eapply Hm; eassumption|]. apply nth_error_None in Ev. assert (i < length ys)%nat by (apply nth_error_Some; congruence). lia. }
    intros r i Hr. unfold list_enc. rewrite Hr. cbn [vget nth_error bind is_str]. rewrite (proj2 (str_eqb_spec kids_mark kids_mark) eq_refl). cbn [vlist bind firstn skipn app].
    pose proof (@made_forall _ _ made enc He xs' ys vs Hl1 Hl2 Hm) as Hf. destruct items as [[|x l]|]; subst ys; try (destruct vs; [|discriminate]; reflexivity). rewrite (mapm_ok _ Hf). reflexivity.
  - exists None. split; [reflexivity|]. split; [intros [|i] x y Q; discriminate|]. intros r i Hr. unfold list_enc. rewrite Hr. reflexivity.
  - exists None. split; [reflexivity|]. split; [intros [|i] x y Q; discriminate|]. intros r i Hr. unfold list_enc. rewrite Hr. cbn [vget nth_error bind]. replace (is_str c kids_mark) with false.
    + cbn [put]. rewrite set_nth_id by exact Hr. reflexivity.
    + symmetry. destruct c as [|s|]; cbn [is_str]; try reflexivity. destruct (str_eqb s kids_mark) eqn:E; [|reflexivity]. apply str_eqb_spec in E. congruence.
Qed.
Lemma prop_made_enc parent p f v : prop_made parent p f v -> prop_enc parent f = Ok v.
Proof.
  intros (_ & _ & a0 & a1 & a2 & a3 & a4 & pat & pat' & mid & c & r & cols & Er & Hm & Hc & _ & -> & Hp). destruct mid as [|m0 [|m1 [|m2 [|m3 [|m4 [|m5 [|m6 [|]]]]]]]]; try discriminate. cbn [app] in *.
  unfold prop_enc. rewrite Er.
  assert (Hpat : (mine <- pattern_is parent_mark (VList (a0 :: a1 :: a2 :: a3 :: a4 :: pat :: m0 :: m1 :: m2 :: m3 :: m4 :: m5 :: m6 :: c :: r)) ;;
    match parent with Some (c0 :: t) => if mine : bool then set_pattern (c0 :: t) (VList (a0 :: a1 :: a2 :: a3 :: a4 :: pat :: m0 :: m1 :: m2 :: m3 :: m4 :: m5 :: m6 :: c :: r)) else Ok (VList (a0 :: a1 :: a2 :: a3 :: a4 :: pat :: m0 :: m1 :: m2 :: m3 :: m4 :: m5 :: m6 :: c :: r)) | _ => Ok (VList (a0 :: a1 :: a2 :: a3 :: a4 :: pat :: m0 :: m1 :: m2 :: m3 :: m4 :: m5 :: m6 :: c :: r)) end)
    = Ok (VList (a0 :: a1 :: a2 :: a3 :: a4 :: pat' :: m0 :: m1 :: m2 :: m3 :: m4 :: m5 :: m6 :: c :: r))).
  { destruct Hp as [[Hp ->]|(x & l & q & t & -> & -> & ->)].
    - rewrite pattern_read by exact Hp. rewrite patmine_not by exact Hp. cbn [bind]. destruct parent as [[|]|]; reflexivity.
    - unfold pattern_is. cbn [vget nth_error bind truthy vlen length Nat.eqb negb andb]. change (1 <? S (S (length q)))%nat with true. cbn iota. cbn [vget nth_error bind is_str]. rewrite (proj2 (str_eqb_spec s_hash s_hash) eq_refl), (proj2 (str_eqb_spec parent_mark parent_mark) eq_refl). cbn [bind].
      destruct parent as [[|c0 t]|]; reflexivity. }
  destruct (pattern_is parent_mark _) as [mm|]; [|discriminate]. cbn [bind] in *.
  assert (Hfin : forall z, z = Ok (VList (a0 :: a1 :: a2 :: a3 :: a4 :: pat' :: m0 :: m1 :: m2 :: m3 :: m4 :: m5 :: m6 :: c :: r)) ->
    (raw <- z ;; match pr_cols f with Some (c1 :: cs) => raw <- Payload.vset raw cols_at (VStr (str_of_int (Z.of_nat (length (c1 :: cs))))) ;; l <- vlist raw ;; Ok (VList (firstn (S cols_at) l ++ map co_raw (c1 :: cs) ++ skipn (S cols_at) l)) | _ => Ok raw end)
    = Ok (VList (a0 :: a1 :: a2 :: a3 :: a4 :: pat' :: m0 :: m1 :: m2 :: m3 :: m4 :: m5 :: m6 :: match cols with [] => c | _ => number (length cols) end :: map co_raw cols ++ r))).
  { intros z ->. cbn [bind]. destruct (pr_cols f) as [[|c1 cs]|]; subst cols; reflexivity. }
  destruct parent as [[|c0 t]|]; [|destruct mm|]; (apply Hfin; exact Hpat).
Qed.
(** the names of the properties that are used *)
Lemma fcols_shape : forall cs cols, map (fun x => (co_name x, co_id x)) cols = map (fun x : list N * list N => (fst x, VStr (snd x))) cs -> cols = mkfcols (combine cs (map co_raw cols)).
Proof.
  induction cs as [|c cs IH]; intros [|x cols] H; try discriminate; [reflexivity|]. cbn [map] in H. assert (H1 : co_name x = fst c) by congruence. assert (H2 : co_id x = VStr (snd c)) by congruence. assert (H3 : map (fun x => (co_name x, co_id x)) cols = map (fun x : list N * list N => (fst x, VStr (snd x))) cs) by congruence.
  cbn [map combine mkfcols fst snd]. fold (mkfcols (combine cs (map co_raw cols))). rewrite <- (IH _ H3), <- H1, <- H2. destruct x; reflexivity.
Qed.
Lemma prop_made_names parent props fs : Forall2 (fun p f => exists v, prop_made parent p f v) props fs -> forall d, NoDup (map fst (d ++ prop_names props)) ->
  fold_left (fun d p => fold_left (fun d c => dset (pr_name p ++ [46] ++ co_name c) (pr_id p, Some (co_id c)) d) (match pr_cols p with Some l => l | None => [] end) (dset (pr_name p) (pr_id p, None) d)) fs d = d ++ prop_names props.
Proof.
  induction 1 as [|p f props fs (v & H1 & H2 & a0 & a1 & a2 & a3 & a4 & pat & pat' & mid & c & r & cols & Er & Hm & Hc & Hcs & _) Hf IH]; intros d Hn; [cbn; rewrite app_nil_r; reflexivity|].
  cbn [fold_left]. unfold prop_names in *. cbn [flat_map app] in Hn |- *. rewrite H1, H2, Hc. rewrite (fcols_shape _ _ Hcs). rewrite dset_new.
  - rewrite cols_named.
    + rewrite IH; [rewrite <- !app_assoc; reflexivity|]. rewrite <- !app_assoc. exact Hn.
    + rewrite map_length. apply (f_equal (@length _)) in Hcs. rewrite !map_length in Hcs. exact Hcs.
    + rewrite <- app_assoc. cbn [app]. change ((sp_name p, (VStr (sp_id p), None)) :: map ?f ?l ++ ?r) with (((sp_name p, (VStr (sp_id p), None)) :: map f l) ++ r) in Hn. rewrite app_assoc, map_app in Hn. apply nodup_left in Hn. exact Hn.
  - rewrite map_app in Hn. cbn [map fst] in Hn. apply NoDup_remove_2 in Hn. intros Q. apply Hn, in_or_app. left. exact Q.
Qed.
Lemma cmd_made_names cmds fs : Forall2 (fun c f => exists v, cmd_made c f v) cmds fs -> forall d, NoDup (map fst (d ++ cmd_names cmds)) ->
  fold_left (fun d c => d <- d ;; v <- vget (cm_raw c) 1 ;; Ok (dset (cm_name c) v d)) fs (Ok d) = Ok (d ++ cmd_names cmds).
Proof.
  induction 1 as [|c f cmds fs (v & H1 & <- & a0 & r & H3) Hf IH]; intros d Hn; [cbn; rewrite app_nil_r; reflexivity|].
  cbn [fold_left bind]. rewrite H3. cbn [vget nth_error bind]. rewrite H1, dset_new.
  - rewrite IH; [cbn [cmd_names map]; rewrite <- app_assoc; reflexivity|]. rewrite <- app_assoc. exact Hn.
  - rewrite map_app in Hn. cbn [cmd_names map fst] in Hn. apply NoDup_remove_2 in Hn. intros Q. apply Hn, in_or_app. left. exact Q.
Qed.
Lemma forall2_nth (A B : Type) (R : A -> B -> Prop) : forall xs ys, length xs = length ys -> (forall i x y, nth_error xs i = Some x -> nth_error ys i = Some y -> R x y) -> Forall2 R xs ys.
Proof. induction xs as [|x xs IH]; intros [|y ys] H Hr; try discriminate; [constructor|]. constructor; [apply (Hr 0%nat); reflexivity|]. apply IH; [cbn in H; lia|]. intros i. apply (Hr (S i)). Qed.

(** ** Elements *)
Section S.
Variable props : list sprop.
Variable cmds : list scmd.
Hypothesis names_once : NoDup (dotted_names props).
Hypothesis ids_some : Forall (fun n => n <> []) (map sp_id props).
Hypothesis cnames_once : NoDup (map sc_name cmds).
Lemma replaced_step at_ old v l l' more : replaced at_ old v l l' -> exists off, calc_offset at_ (l ++ more) = Ok off /\ py_nth (l ++ more) off = Ok old /\ zput off v (l ++ more) = Ok (l' ++ more).
Proof.
  intros (x & data & post & -> & Hlo & ->). exists (zlen (data ++ [old])). cbn [app]. rewrite <- !app_assoc. 
  pose proof (calc_walk x (post ++ more) Hlo) as Hc. rewrite <- app_assoc in Hc. split; [exact Hc|].
  assert (Hz : zlen (data ++ [old]) = zlen (x :: data)) by (unfold zlen; rewrite app_length; cbn [length]; lia). rewrite Hz.
  split; [exact (@py_nth_mid (x :: data) old (post ++ more))|exact (zput_mid (x :: data) old (post ++ more) v)].
Qed.
Lemma relink_prop_ok k ed at_ link link' f f' more : prop_at k = Some at_ -> replaced at_ link link' f f' -> relinked props (e_prop ed) link link' -> relink_prop (prop_names props) k ed (f ++ more) = Ok (f' ++ more).
Proof.
  intros Ha Hr Hl. destruct (replaced_step more Hr) as (off & H1 & H2 & H3). unfold relink_prop.
  inversion Hl as [lk E1 E2 E3|nm E1 E2 E3|p old l Hp Hne E1 E2 E3|p c old old' l Hp Hc E1 E2 E3]; subst.
  - try rewrite <- E1. destruct Hr as (x & data & post & -> & _ & ->). reflexivity.
  - assert (Hid : f' = f) by (destruct Hr as (x & data & post & -> & _ & ->); reflexivity). subst f'. destruct (e_prop ed) as [[|c0 s]|]; try reflexivity. rewrite Ha, H1. cbn [bind]. rewrite H2. reflexivity.
  - try rewrite <- E1. destruct (sp_name p) as [|c0 s] eqn:En; [contradiction|]. rewrite Ha, H1. cbn [bind]. rewrite H2. cbn [bind truthy length Nat.eqb negb]. rewrite <- En, (@pnames_prop props names_once p Hp).
    assert (Hid : truthy (VStr (sp_id p)) = true). { rewrite Forall_forall in ids_some. specialize (ids_some (sp_id p) (in_map _ _ _ Hp)). destruct (sp_id p); [congruence|reflexivity]. }
    rewrite Hid. cbn [negb andb vget nth_error bind]. rewrite number_int. cbn [bind]. change (Z.of_nat 1 =? 1)%Z with true. cbn iota. cbn [Payload.vset nth_error set_nth bind]. exact H3.
  - try rewrite <- E1. try change (sp_name p ++ 46 :: fst c) with (sp_name p ++ [46] ++ fst c). destruct (sp_name p ++ [46] ++ fst c) as [|c0 s] eqn:En; [destruct (sp_name p); discriminate|]. rewrite Ha, H1. cbn [bind]. rewrite H2. cbn [bind truthy length Nat.eqb negb]. rewrite <- En, (@pnames_col props names_once p c Hp Hc).
    rewrite andb_false_r. cbn [negb andb vget nth_error bind]. rewrite number_int. cbn [bind]. change (Z.of_nat 2 =? 1)%Z with false. change (Z.of_nat 2 =? 2)%Z with true. cbn iota. cbn [bind Payload.vset nth_error set_nth]. exact H3.
Qed.
Lemma relink_cmd_ok k ed at_ link link' f f' more : command_at k = Some at_ -> replaced at_ link link' f f' -> recommanded cmds (e_cmd ed) link link' -> relink_cmd (cmd_names cmds) k ed (f ++ more) = Ok (f' ++ more).
Proof.
  intros Ha Hr Hl. destruct (replaced_step more Hr) as (off & H1 & H2 & H3). unfold relink_cmd.
  inversion Hl as [lk E1 E2 E3|nm E1 E2 E3|c x l y m Hc Hne Href E1 E2 E3]; subst.
  - try rewrite <- E1. destruct Hr as (x & data & post & -> & _ & ->). reflexivity.
  - assert (Hid : f' = f) by (destruct Hr as (x & data & post & -> & _ & ->); reflexivity). subst f'. destruct (e_cmd ed) as [[|c0 s]|]; try reflexivity. rewrite Ha, H1. cbn [bind]. rewrite H2. reflexivity.
  - try rewrite <- E1. destruct (sc_name c) as [|c0 s] eqn:En; [contradiction|]. rewrite Ha, H1. cbn [bind]. rewrite H2. cbn [bind truthy length Nat.eqb negb]. rewrite <- En, (@cnames_known cmds cnames_once c Hc), Href. cbn [truthy length Nat.eqb negb]. exact H3.
Qed.
Lemma bare_with f e : bare (with_front f e) = f ++ bare_tail e.
Proof. rewrite bare_split. destruct e. reflexivity. Qed.
Lemma base_written data key ed e : dget key data = Some ed -> written_as props cmds key ed e -> based (prop_names props) (cmd_names cmds) data key e.
Proof.
  intros Hd (f0 & f1 & f2 & E0 & Hn1 & Hn2 & Hp & Hc & Hns) path Hk. rewrite name_place_is in Hn1. rewrite prop_place_is in Hp. rewrite command_place_is in Hc. unfold base_enc. rewrite Hk, Hd, E0, bare_with.
  assert (H1 : (if has s_includr key then off <- calc_offset (name_at (fe_kind e)) (f0 ++ bare_tail e) ;; zput off (VStr (str_encode (fe_name e))) (f0 ++ bare_tail e) else Ok (f0 ++ bare_tail e)) = Ok (f1 ++ bare_tail e)).
  { destruct (has s_includr key) eqn:E.
    - apply has_inside in E. destruct (Hn1 E) as (old & Hr). destruct (replaced_step (bare_tail e) Hr) as (off & -> & _ & Hz). cbn [bind]. exact Hz.
    - rewrite Hn2; [reflexivity|]. intros Q. apply has_inside in Q. congruence. }
  rewrite H1. cbn [bind]. rewrite bare_split. destruct (has s_include key || has s_includr key) eqn:Es.
  - assert (Hs : shared key). { apply orb_true_iff in Es. destruct Es as [Es|Es]; apply has_inside in Es; [left|right]; exact Es. }
    specialize (Hp Hs). specialize (Hc Hs).
    assert (H2 : relink_prop (prop_names props) (fe_kind e) ed (f1 ++ bare_tail e) = Ok (f2 ++ bare_tail e)).
    { destruct (prop_at (fe_kind e)) as [at_|] eqn:Ea; [destruct Hp as (link & link' & Hr & Hl); eapply relink_prop_ok; eassumption|]. subst f2. unfold relink_prop. rewrite Ea. destruct (e_prop ed) as [[|]|]; reflexivity. }
    rewrite H2. cbn [bind]. destruct (command_at (fe_kind e)) as [at_|] eqn:Ea; [destruct Hc as (link & link' & Hr & Hl); eapply relink_cmd_ok; eassumption|]. rewrite Hc. unfold relink_cmd. rewrite Ea. destruct (e_cmd ed) as [[|]|]; reflexivity.
  - rewrite Hns; [reflexivity|]. intros [Q|Q]; apply has_inside in Q; rewrite Q in Es; [discriminate|rewrite orb_true_r in Es; discriminate].
Qed.
End S.

Theorem form_described parent fe raw' raw props cmds es : described parent fe raw' raw props cmds es -> elems_encode parent fe raw' = Ok raw.
Proof.
  intros [Ht (v0 & front & back & rest & rest' & x & dd & Er' & Er & Ef & Hlo) Hsame Hps Hcs (us & Has) (Hn1 & Hn2 & Hn3) Hk Hd].
  destruct (section_builds cmd_enc (fun c f v H => match H with conj _ (conj E _) => eq_trans (f_equal Ok E) eq_refl end) Hcs) as (cs & Lc & Mc & B5).
  destruct (section_builds (prop_enc parent) (@prop_made_enc parent) Hps) as (ps & Lp & Mp & B3).
  destruct (section_builds par_enc (fun c f v (H : par_made c f v) => f_equal Ok H) Has) as (us' & _ & _ & B4).
  set (o5 := nth_error raw 5) in *. set (o3 := nth_error raw 3) in *. set (o4 := nth_error raw 4) in *.
  assert (N3 : nth_error (put 5 o5 raw') 3 = nth_error raw' 3) by (rewrite put_nth; reflexivity).
  assert (Nci : names_commands cs = Ok (cmd_names cmds)).
  { unfold names_commands. refine (@cmd_made_names cmds _ (@forall2_nth _ _ _ _ _ Lc Mc) [] _). cbn [app]. unfold cmd_names. rewrite map_map. exact Hn3. }
  assert (Npi : names_props ps = prop_names props).
  { unfold names_props. refine (@prop_made_names parent props _ (@forall2_nth _ _ _ _ _ Lp Mp) [] _). cbn [app]. rewrite pnames_keys. exact Hn1. }
  assert (P : forall (A B : Type) (mm : A -> B -> val -> Prop) it xs a b, section_made mm it xs a b -> (a = None <-> b = None)) by (intros A B mm it xs a b []; split; congruence).
  set (q3 := put 3 o3 (put 5 o5 raw')).
  assert (N1 : nth_error q3 1 = Some (VList (front ++ VStr kids_mark :: back))) by (unfold q3; rewrite !put_nth; cbn [Nat.eqb]; rewrite Er'; reflexivity).
  eapply encode_steps with (es := es); [exact (B5 raw' 5%nat eq_refl)|exact (B3 _ 3%nat N3)|exact Nci|exact N1|exact Ef|exact Hlo|exact Ht| |].
  - rewrite Npi, Forall_forall. intros [path e] Hin. cbn [fst snd]. destruct (Hk _ _ Hin) as [K1 K2]. destruct (Hd _ _ Hin) as (ed & D1 & D2). constructor; [exact K1|exact K2|]. eapply base_written; eassumption.
  - rewrite (B4 _ 4%nat).
    + f_equal. f_equal. apply nth_ext. intros j. rewrite put_nth. destruct (4 =? j)%nat eqn:J4.
      * apply Nat.eqb_eq in J4. subst j. rewrite set_nth_other by discriminate. unfold q3. rewrite !put_nth. cbn [Nat.eqb]. fold o4. pose proof (P _ _ _ _ _ _ _ Has) as [Q1 Q2]. destruct o4 as [s|]; [|destruct (nth_error raw' 4); [specialize (Q2 eq_refl); discriminate|reflexivity]]. destruct (nth_error raw' 4); [reflexivity|specialize (Q1 eq_refl); discriminate].
      * destruct (Nat.eq_dec j 1) as [->|J1]; [rewrite (@set_nth_same _ q3 1%nat _ _ N1), Er; reflexivity|]. rewrite set_nth_other by congruence. unfold q3. rewrite !put_nth.
        pose proof (P _ _ _ _ _ _ _ Hps) as [P1 P2]. pose proof (P _ _ _ _ _ _ _ Hcs) as [C1 C2].
        destruct (3 =? j)%nat eqn:J3; destruct (5 =? j)%nat eqn:J5.
        -- apply Nat.eqb_eq in J3, J5. congruence.
        -- apply Nat.eqb_eq in J3. subst j. fold o3. destruct o3 as [s|]; [|destruct (nth_error raw' 3); [specialize (P2 eq_refl); discriminate|reflexivity]]. destruct (nth_error raw' 3); [reflexivity|specialize (P1 eq_refl); discriminate].
        -- apply Nat.eqb_eq in J5. subst j. fold o5. destruct o5 as [s|]; [|destruct (nth_error raw' 5); [specialize (C2 eq_refl); discriminate|reflexivity]]. destruct (nth_error raw' 5); [reflexivity|specialize (C1 eq_refl); discriminate].
        -- apply Hsame; [exact J1| | |]; intros ->; discriminate.
    + rewrite set_nth_other by discriminate. unfold q3. rewrite !put_nth. reflexivity.
Qed.
