(** Managed forms: extraction and build of all the elements. *)
From Coq Require Import Lia Permutation.
From Verif Require Import PyBase PyInt Brace Header CalcOffset Container HeaderProofs Spec_Misc MiscProofs MetaObjBase FormCode Payload MetaObj FormElem Spec_FormElem FormElemBase FormElemProofs FormElemList.
Set Implicit Arguments.
Open Scope list_scope.
Open Scope N_scope.

(** ** Indexes of what was read *)
Definition mkfcols (cvs : list ((list N * list N) * val)) : list fcol := map (fun cv => mkcol (fst (fst cv)) (VStr (snd (fst cv))) (snd cv)) cvs.
Lemma nodup_tail (A : Type) (d : list A) x l : NoDup (d ++ x :: l) -> NoDup ((d ++ [x]) ++ l).
Proof. rewrite <- app_assoc. exact (fun H => H). Qed.
Lemma fold_cols : forall cs vs d, length vs = length cs -> NoDup (map fst (d ++ map (fun c : list N * list N => (snd c, PN (fst c) [])) cs)) ->
  fold_left (fun d c => d <- d ;; i <- id_str (co_id c) ;; Ok (dset i (PN (co_name c) []) d)) (mkfcols (combine cs vs)) (Ok d) = Ok (d ++ map (fun c : list N * list N => (snd c, PN (fst c) [])) cs).
Proof.
  induction cs as [|c cs IH]; intros [|v vs] d Hl Hn; try discriminate; [cbn; rewrite app_nil_r; reflexivity|]. cbn [combine mkfcols map fold_left co_id fst snd id_str bind co_name]. rewrite dset_new.
  - fold (mkfcols (combine cs vs)). rewrite IH; [rewrite <- app_assoc; reflexivity|cbn in Hl; lia|]. rewrite <- app_assoc. exact Hn.
  - rewrite map_app in Hn. cbn [map fst] in Hn. apply NoDup_remove_2 in Hn. intros Q. apply Hn, in_or_app. left. exact Q.
Qed.
Lemma some_of_list (A : Type) (l : list A) : match some_of l with Some l => l | None => [] end = l.
Proof. destruct l; reflexivity. Qed.
Lemma cols_indexed p vs : length vs = length (sp_cols p) -> NoDup (map snd (sp_cols p)) -> index_cols (fcols_of p vs) = Ok (col_index p).
Proof.
  intros Hl Hn. unfold index_cols, fcols_of. rewrite some_of_list. exact (@fold_cols (sp_cols p) vs [] Hl ltac:(cbn [app]; rewrite map_map; exact Hn)).
Qed.
Lemma props_indexed : forall props fs d, Forall2 fprop_ok props fs -> NoDup (map fst (d ++ prop_index props)) -> Forall (fun p => NoDup (map snd (sp_cols p))) props ->
  fold_left (fun d p => d <- d ;; i <- id_str (pr_id p) ;; ks <- index_cols (pr_cols p) ;; Ok (dset i (PN (pr_name p) ks) d)) fs (Ok d) = Ok (d ++ prop_index props).
Proof.
  induction props as [|p props IH]; intros fs d Hf Hn Hc; inversion Hf as [|? f ? fs' (H1 & H2 & vs & H3 & H4) Hf']; subst; [cbn; rewrite app_nil_r; reflexivity|].
  inversion Hc as [|? ? Hc1 Hc2]; subst. cbn [fold_left bind]. rewrite H2. cbn [id_str bind]. rewrite H4, cols_indexed by assumption. cbn [bind]. rewrite H1, dset_new.
  - rewrite IH; [cbn [prop_index map]; rewrite <- app_assoc; reflexivity|exact Hf'| |exact Hc2]. rewrite <- app_assoc. exact Hn.
  - rewrite map_app in Hn. cbn [prop_index map fst] in Hn. apply NoDup_remove_2 in Hn. intros Q. apply Hn, in_or_app. left. exact Q.
Qed.
Definition fcmd_ok (c : scmd) (f : fcmd) : Prop := cm_name f = sc_name c /\ cm_id f = VStr (sc_id c) /\ vget (cm_raw f) 1 = Ok (sc_ref c).
Lemma cmds_indexed : forall cmds fs d, Forall2 fcmd_ok cmds fs -> NoDup (map fst (d ++ cmd_index cmds)) ->
  fold_left (fun d c => d <- d ;; i <- id_str (cm_id c) ;; Ok (dset i (cm_name c) d)) fs (Ok d) = Ok (d ++ cmd_index cmds).
Proof.
  induction cmds as [|c cmds IH]; intros fs d Hf Hn; inversion Hf as [|? f ? fs' (H1 & H2 & H3) Hf']; subst; [cbn; rewrite app_nil_r; reflexivity|].
  cbn [fold_left bind]. rewrite H2. cbn [id_str bind]. rewrite H1, dset_new.
  - rewrite IH; [cbn [cmd_index map]; rewrite <- app_assoc; reflexivity|exact Hf'|]. rewrite <- app_assoc. exact Hn.
  - rewrite map_app in Hn. cbn [cmd_index map fst] in Hn. apply NoDup_remove_2 in Hn. intros Q. apply Hn, in_or_app. left. exact Q.
Qed.
Lemma cmds_named : forall cmds fs d, Forall2 fcmd_ok cmds fs -> NoDup (map fst (d ++ cmd_names cmds)) ->
  fold_left (fun d c => d <- d ;; v <- vget (cm_raw c) 1 ;; Ok (dset (cm_name c) v d)) fs (Ok d) = Ok (d ++ cmd_names cmds).
Proof.
  induction cmds as [|c cmds IH]; intros fs d Hf Hn; inversion Hf as [|? f ? fs' (H1 & H2 & H3) Hf']; subst; [cbn; rewrite app_nil_r; reflexivity|].
  cbn [fold_left bind]. rewrite H3. cbn [bind]. rewrite H1, dset_new.
  - rewrite IH; [cbn [cmd_names map]; rewrite <- app_assoc; reflexivity|exact Hf'|]. rewrite <- app_assoc. exact Hn.
  - rewrite map_app in Hn. cbn [cmd_names map fst] in Hn. apply NoDup_remove_2 in Hn. intros Q. apply Hn, in_or_app. left. exact Q.
Qed.
Lemma cols_named nm id : forall cs vs d, length vs = length cs -> NoDup (map fst (d ++ map (fun c : list N * list N => (nm ++ [46] ++ fst c, (VStr id, Some (VStr (snd c))))) cs)) ->
  fold_left (fun (d : list (list N * (val * option val))) c => dset (nm ++ [46] ++ co_name c) (VStr id, Some (co_id c)) d) (mkfcols (combine cs vs)) d = d ++ map (fun c : list N * list N => (nm ++ [46] ++ fst c, (VStr id, Some (VStr (snd c))))) cs.
Proof.
  induction cs as [|c cs IH]; intros [|v vs] d Hl Hn; try discriminate; [cbn; rewrite app_nil_r; reflexivity|]. cbn [combine mkfcols map fold_left co_id fst snd co_name]. rewrite dset_new.
  - fold (mkfcols (combine cs vs)). rewrite IH; [rewrite <- app_assoc; reflexivity|cbn in Hl; lia|]. rewrite <- app_assoc. exact Hn.
  - rewrite map_app in Hn. cbn [map fst] in Hn. apply NoDup_remove_2 in Hn. intros Q. apply Hn, in_or_app. left. exact Q.
Qed.
Lemma nodup_left (A : Type) (a b : list A) : NoDup (a ++ b) -> NoDup a.
Proof. induction a as [|x a IH]; intros H; [constructor|]. inversion H; subst. constructor; [intros Q; apply H2, in_or_app; left; exact Q|apply IH; assumption]. Qed.
Lemma props_named : forall props fs d, Forall2 fprop_ok props fs -> NoDup (map fst (d ++ prop_names props)) ->
  fold_left (fun d p => fold_left (fun d c => dset (pr_name p ++ [46] ++ co_name c) (pr_id p, Some (co_id c)) d) (match pr_cols p with Some l => l | None => [] end) (dset (pr_name p) (pr_id p, None) d)) fs d = d ++ prop_names props.
Proof.
  induction props as [|p props IH]; intros fs d Hf Hn; inversion Hf as [|? f ? fs' (H1 & H2 & vs & H3 & H4) Hf']; subst; [cbn; rewrite app_nil_r; reflexivity|].
  cbn [fold_left]. unfold prop_names in *. cbn [flat_map app] in Hn |- *. rewrite H1, H2, H4. unfold fcols_of. rewrite some_of_list. rewrite dset_new.
  - fold (mkfcols (combine (sp_cols p) vs)). rewrite cols_named.
    + rewrite IH; [rewrite <- !app_assoc; reflexivity|exact Hf'|]. rewrite <- !app_assoc. exact Hn.
    + exact H3.
    + rewrite <- app_assoc. cbn [app]. change ((sp_name p, (VStr (sp_id p), None)) :: map ?f ?l ++ ?r) with (((sp_name p, (VStr (sp_id p), None)) :: map f l) ++ r) in Hn. rewrite app_assoc, map_app in Hn. apply nodup_left in Hn. exact Hn.
  - rewrite map_app in Hn. cbn [map fst] in Hn. apply NoDup_remove_2 in Hn. intros Q. apply Hn, in_or_app. left. exact Q.
Qed.

(** ** The list of elements *)
Lemma elem_index_calc root i : calc_offset [(18, 2); (3, 1); (1, 0)]%Z root = Ok i -> elem_index root = Ok i.
Proof.
  unfold elem_index, calc_offset. cbn [calc_offset_go]. change (2 =? 0)%Z with false. change (1 =? 0)%Z with false. change (0 =? 0)%Z with true. cbv iota. intros H.
  destruct (py_nth root (0 + 18)) as [v|]; [|discriminate H]. destruct (int_of_val v) as [n|]; [|discriminate H]. cbn [bind] in *.
  destruct (py_nth root (0 + 18 + n * 2 + 3)) as [v'|]; [|discriminate H]. cbn [bind]. destruct (int_of_val v') as [n'|]; [|discriminate H]. cbn [bind]. assert (i = (0 + 18 + n * 2 + 3 + n' * 1 + 1)%Z) as -> by congruence. apply f_equal. lia.
Qed.
Lemma elem_index_ok front (es : list felem) back x data : front = x :: data -> laid_out [(18, 2); (3, 1); (1, 0)]%Z (data ++ [number (length es)]) -> forall c, elem_index (front ++ c :: back) = Ok (zlen front).
Proof.
  intros -> Hl c. apply elem_index_calc. exact (@place_calc [(18, 2); (3, 1)]%Z 1%Z x data _ ltac:(lia) Hl c back).
Qed.
Lemma hvset i x : forall l y, nth_error l i = Some y -> Header.vset i x l = Ok (set_nth i x l).
Proof. induction i as [|i IH]; intros [|z l] y H; try discriminate; [reflexivity|]. cbn [Header.vset set_nth nth_error] in *. rewrite (IH _ _ H). reflexivity. Qed.
Lemma encode_steps parent fe r r5 r3 r4 cs ps pars cn front back (es : list felem) x dd :
  list_enc cmd_enc 5 (fe_commands fe) r = Ok (r5, cs) -> list_enc (prop_enc parent) 3 (fe_props fe) r5 = Ok (r3, ps) -> names_commands cs = Ok cn ->
  nth_error r3 1 = Some (VList (front ++ VStr kids_mark :: back)) -> front = x :: dd -> laid_out [(18, 2); (3, 1); (1, 0)]%Z (dd ++ [number (length es)]) ->
  fe_tree fe = Some (map item_of es) -> Forall (fun pe => built_ok (names_props ps) cn (fe_data fe) (fst pe) (snd pe)) (all_paths es) ->
  list_enc par_enc 4 (fe_params fe) (set_nth 1 (VList (front ++ number (length es) :: pairs_of es ++ back)) r3) = Ok (r4, pars) ->
  elems_encode parent fe r = Ok r4.
Proof.
  intros H5 H3 Hc Hr Hf Hl Ht Hb H4. unfold elems_encode. rewrite H5. cbn [bind]. rewrite H3. cbn [bind]. cbv zeta. rewrite Hc. cbn [bind]. unfold root_of, vnth. rewrite Hr. cbn [bind vlist].
  rewrite (elem_index_ok es back Hf Hl). cbn [bind]. rewrite py_nth_mid. cbn [bind is_str]. rewrite (proj2 (str_eqb_spec kids_mark kids_mark) eq_refl), Ht. rewrite (enc_items_ok _ Hb). cbn [bind]. rewrite put_kids_mid. cbn [bind].
  rewrite (@hvset _ _ _ _ Hr). cbn [bind]. rewrite H4. reflexivity.
Qed.
Lemma encode_steps0 parent fe r r5 r3 r4 cs ps pars cn front c back (es : list felem) x dd :
  list_enc cmd_enc 5 (fe_commands fe) r = Ok (r5, cs) -> list_enc (prop_enc parent) 3 (fe_props fe) r5 = Ok (r3, ps) -> names_commands cs = Ok cn ->
  nth_error r3 1 = Some (VList (front ++ c :: back)) -> front = x :: dd -> laid_out [(18, 2); (3, 1); (1, 0)]%Z (dd ++ [number (length es)]) -> is_str c kids_mark = false ->
  list_enc par_enc 4 (fe_params fe) r3 = Ok (r4, pars) ->
  elems_encode parent fe r = Ok r4.
Proof.
  intros H5 H3 Hc Hr Hf Hl Hs H4. unfold elems_encode. rewrite H5. cbn [bind]. rewrite H3. cbn [bind]. cbv zeta. rewrite Hc. cbn [bind]. unfold root_of, vnth. rewrite Hr. cbn [bind vlist].
  rewrite (elem_index_ok es back Hf Hl). cbn [bind]. rewrite py_nth_mid. cbn [bind]. rewrite Hs. cbn [bind]. rewrite H4. reflexivity.
Qed.

(** ** A form that was extracted *)
Lemma stands_get at_ v l : stands at_ v l -> exists off, calc_offset at_ l = Ok off /\ py_nth l off = Ok v.
Proof. intros H. destruct (stands_calc H) as (i & Hi). destruct (Hi []) as (A & B & _). rewrite app_nil_r in A, B. eauto. Qed.
Theorem form_through parent raw props cmds pars es : parent_ok parent -> form_is raw props cmds pars es -> exists raw' fe,
  elems_decode parent raw = Ok (raw', fe) /\ fe_tree fe = Some (map item_of es) /\ Permutation (map fst (fe_data fe)) (map fst (all_paths es)) /\
  (forall path e, In (path, e) (all_paths es) -> exists ed, dget path (fe_data fe) = Some ed /\ entry_of props cmds e ed) /\
  map pr_name (match fe_props fe with Some l => l | None => [] end) = map sp_name props /\
  map cm_name (match fe_commands fe with Some l => l | None => [] end) = map sc_name cmds /\
  map pa_name (match fe_params fe with Some l => l | None => [] end) = pars /\
  elems_encode parent fe raw' = Ok raw.
Proof.
  intros Hpar [Hroot [He Hnd] (pv & Hps & Hpi) (cv & Hcs & Hci) (av & Has & Hai) (Hi1 & Hi2 & Hi3) (Hn1 & Hn2 & Hn3)].
  assert (HP : exists fs, Forall2 (fun v y => exists v', prop_dec parent v = (v', Ok y)) pv fs /\ Forall2 (fun v y => prop_enc parent y = Ok v) pv fs /\ Forall2 fprop_ok props fs).
  { clear -Hpar Hpi. induction Hpi as [|p v ps pv Hp _ (fs & A & B & C)]; [exists []; repeat constructor|]. destruct (prop_through Hpar Hp) as (v' & f & H1 & H2 & H3). exists (f :: fs). repeat split; constructor; eauto. }
  assert (HC : exists fs, Forall2 (fun v y => exists v', cmd_dec v = (v', Ok y)) cv fs /\ Forall2 (fun v y => cmd_enc y = Ok v) cv fs /\ Forall2 fcmd_ok cmds fs).
  { clear -Hci. induction Hci as [|p v ps pv Hp _ (fs & A & B & C)]; [exists []; repeat constructor|]. destruct (cmd_through Hp) as (f & H1 & H2 & H3). exists (f :: fs). repeat split; constructor; eauto. }
  assert (HA : exists fs, Forall2 (fun v y => exists v', par_dec v = (v', Ok y)) av fs /\ Forall2 (fun v y => par_enc y = Ok v) av fs /\ map pa_name fs = pars).
  { clear -Hai. induction Hai as [|p v ps pv Hp _ (fs & A & B & C)]; [exists []; repeat constructor|]. destruct (par_through Hp) as (f & H1 & H2 & H3). exists (f :: fs). repeat split; [constructor; eauto|constructor; eauto|cbn [map]; congruence]. }
  destruct HP as (pf & P1 & P2 & P3). destruct HC as (cf & C1 & C2 & C3). destruct HA as (af & A1 & A2 & A3).
  destruct Hroot as (v0 & front & back & rest & x & dd & Eraw & Ef & Hlo).
  assert (Eroot : nth_error raw 1 = Some (VList (front ++ number (length es) :: pairs_of es ++ back))) by (rewrite Eraw; reflexivity).
  set (R1 := match es with [] => number 0 | _ => VStr kids_mark end).
  set (r1 := put 3 (left_of pv (nth_error raw 3)) raw). set (r2 := put 5 (left_of cv (nth_error raw 5)) r1).
  set (r3 := set_nth 1 (VList (front ++ R1 :: back)) r2). set (r4 := put 4 (left_of av (nth_error raw 4)) r3).
  assert (D3 : list_dec (prop_dec parent) 3 raw = (r1, some_of pf)) by exact (section_dec _ _ _ _ Hps eq_refl P1).
  assert (D5 : list_dec cmd_dec 5 r1 = (r2, some_of cf)) by (refine (section_dec _ _ _ _ Hcs _ C1); unfold r1; rewrite put_nth; reflexivity).
  assert (D4 : list_dec par_dec 4 r3 = (r4, some_of af)).
  { refine (section_dec _ _ _ _ Has _ A1). unfold r3. rewrite set_nth_other by discriminate. unfold r2, r1. rewrite !put_nth. reflexivity. }
  assert (E2 : nth_error r2 1 = Some (VList (front ++ number (length es) :: pairs_of es ++ back))) by (unfold r2, r1; rewrite !put_nth; exact Eroot).
  assert (Ipi : index_props (some_of pf) = Ok (prop_index props)).
  { unfold index_props. rewrite some_of_list. refine (props_indexed [] P3 _ Hi2). cbn [app]. unfold prop_index. rewrite map_map. exact Hi1. }
  assert (Ici : index_commands (some_of cf) = Ok (cmd_index cmds)).
  { unfold index_commands. rewrite some_of_list. refine (cmds_indexed [] C3 _). cbn [app]. unfold cmd_index. rewrite map_map. exact Hi3. }
  assert (Npi : names_props (some_of pf) = prop_names props).
  { unfold names_props. rewrite some_of_list. refine (props_named [] P3 _). cbn [app]. rewrite pnames_keys. exact Hn1. }
  assert (Nci : names_commands (some_of cf) = Ok (cmd_names cmds)).
  { unfold names_commands. rewrite some_of_list. refine (cmds_named [] C3 _). cbn [app]. unfold cmd_names. rewrite map_map. exact Hn3. }
  set (ents := posts props cmds [] es).
  assert (Hents : Permutation (map fst ents) (map fst (all_paths es))).
  { unfold ents. pose proof (posts_perm props cmds es) as Q. apply (Permutation_map fst) in Q. rewrite map_map in Q. exact Q. }
  assert (Hnd2 : NoDup (map fst ents)) by (eapply Permutation_NoDup; [apply Permutation_sym, Hents|exact Hnd]).
  set (sorted := sort_by (fun x y : list N * edata => str_leb (fst x) (fst y)) ents).
  assert (Hget : forall path e, In (path, e) (all_paths es) -> dget path sorted = Some (ent props cmds e)).
  { intros path e Hin. unfold sorted. rewrite <- (@dget_perm _ path ents); [|apply Permutation_sym, sort_perm|exact Hnd2]. apply dget_nodup; [exact Hnd2|]. unfold ents. eapply Permutation_in; [apply Permutation_sym, posts_perm|]. apply in_map_iff. exists (path, e). auto. }
  exists r4, (mkelems (some_of af) (some_of pf) (some_of cf) (Some (map item_of es)) sorted). cbn [fe_tree fe_data fe_props fe_commands fe_params].
  assert (Hdec : elems_decode parent raw = Ok (r4, mkelems (some_of af) (some_of pf) (some_of cf) (Some (map item_of es)) sorted)).
  { unfold elems_decode. rewrite D3, D5. unfold root_of, vnth. rewrite E2. cbn [bind vlist]. rewrite (elem_index_ok es _ Ef Hlo). cbn [bind]. rewrite Ipi, Ici. cbn [bind].
    rewrite (list_dec_ok props cmds _ [] front es back []).
    - cbn [bind]. fold R1 r3. rewrite D4. f_equal. f_equal. unfold sorted, ents. rewrite (@dsets_new _ (posts props cmds [] es) []) by (cbn [app]; exact Hnd2). cbn [app]. destruct es; reflexivity.
    - intros e d Hin. apply dec_elem_ok; try assumption.
      + rewrite Forall_forall in He |- *. intros pe Hpe. apply He. unfold all_paths. apply in_flat_map. exists e. auto.
      + intros (a & b & E). destruct a; discriminate.
      + pose proof (@depth_in (VList (raw_of e)) (front ++ number (length es) :: pairs_of es ++ back) ltac:(apply in_or_app; right; right; apply in_or_app; left; apply pair_in, Hin)). lia. }
  split; [exact Hdec|]. split; [reflexivity|]. split; [eapply perm_trans; [apply Permutation_map, sort_perm|exact Hents]|]. split.
  { intros path e Hin. exists (ent props cmds e). split; [apply Hget, Hin|]. unfold ent, entry_of. cbn [e_raw e_prop e_cmd]. split; [reflexivity|]. split.
    - intros at_ link n Ha Hst Hl Hne. unfold plink, prop_of. rewrite <- prop_place_is, Ha. destruct (stands_get Hst) as (off & -> & Hv). cbn [bind]. rewrite Hv. cbn [bind].
      destruct Hl as [p l Hp|p c l Hp Hc]; cbn [truthy length Nat.eqb negb vget nth_error bind]; rewrite number_int; cbn [bind]; rewrite Nat2Z.id; cbn [link_names vget nth_error bind id_str]; rewrite (@pidx_known _ Hi1) by exact Hp; cbn [bind link_names vget nth_error id_str].
      + cbn [join]. destruct (sp_name p); [contradiction|reflexivity].
      + rewrite (@col_known props Hi2 p c) by assumption. cbn [bind link_names join]. destruct (sp_name p ++ [46] ++ fst c) eqn:E; [contradiction|]. reflexivity.
    - intros at_ id l c Ha Hst Hc Hid Hne Hz. unfold clink, cmd_of. rewrite <- command_place_is, Ha. destruct (stands_get Hst) as (off & -> & Hv). cbn [bind]. rewrite Hv. cbn [bind truthy length Nat.eqb negb vget nth_error int_of_val].
      rewrite Forall_forall in He. specialize (He _ Hin). cbn [fst snd] in He. destruct (eo_cmd He Ha) as (link & Hst2 & Hf2 & _). destruct (stands_get Hst) as (o1 & X1 & X2). destruct (stands_get Hst2) as (o2 & Y1 & Y2). rewrite X1 in Y1. injection Y1 as <-. rewrite X2 in Y2. injection Y2 as <-.
      destruct Hf2 as [Q|(id2 & n & l2 & Q & Hn)]; [discriminate|]. injection Q as <- <-. rewrite Hn in *. cbn [bind]. replace (n =? 0)%Z with false by (symmetry; apply Z.eqb_neq; congruence). cbn [id_str bind]. subst id. rewrite (@cidx_known _ Hi3) by exact Hc. destruct (sc_name c); [contradiction|reflexivity]. }
  split; [rewrite some_of_list; clear -P3; induction P3 as [|p f ps fs (A & _) _ IH]; [reflexivity|]; cbn [map]; congruence|].
  split; [rewrite some_of_list; clear -C3; induction C3 as [|p f ps fs (A & _) _ IH]; [reflexivity|]; cbn [map]; congruence|].
  split; [rewrite some_of_list; exact A3|].
  (* build *)
  set (o5 := match cv with [] => None | _ => nth_error raw 5 end). set (o3 := match pv with [] => None | _ => nth_error raw 3 end). set (o4 := match av with [] => None | _ => nth_error raw 4 end).
  assert (N5 : nth_error r4 5 = match left_of cv (nth_error raw 5) with Some s => Some s | None => nth_error raw 5 end).
  { unfold r4, r3. rewrite put_nth. cbn [Nat.eqb]. rewrite set_nth_other by discriminate. unfold r2, r1. rewrite !put_nth. cbn [Nat.eqb]. unfold left_of. destruct cv; [destruct (nth_error raw 5); reflexivity|]. destruct (nth_error raw 5) as [[| |[|h [|c l]]]|]; reflexivity. }
  pose proof (section_enc cmd_enc _ _ r4 Hcs N5 C2) as B5. fold o5 in B5.
  assert (N3 : nth_error (put 5 o5 r4) 3 = match left_of pv (nth_error raw 3) with Some s => Some s | None => nth_error raw 3 end).
  { rewrite put_nth. cbn [Nat.eqb]. unfold r4, r3. rewrite put_nth. cbn [Nat.eqb]. rewrite set_nth_other by discriminate. unfold r2, r1. rewrite !put_nth. cbn [Nat.eqb]. unfold left_of. destruct pv; [destruct (nth_error raw 3); reflexivity|]. destruct (nth_error raw 3) as [[| |[|h [|c l]]]|]; reflexivity. }
  pose proof (section_enc (prop_enc parent) _ _ (put 5 o5 r4) Hps N3 P2) as B3. fold o3 in B3.
  set (q3 := put 3 o3 (put 5 o5 r4)) in *.
  assert (N1 : nth_error q3 1 = Some (VList (front ++ R1 :: back))).
  { unfold q3, r4, r3. rewrite !put_nth. cbn [Nat.eqb]. eapply set_nth_same. exact E2. }
  assert (N4 : forall v, nth_error (set_nth 1 v q3) 4 = match left_of av (nth_error raw 4) with Some s => Some s | None => nth_error raw 4 end).
  { intros v. rewrite set_nth_other by discriminate. unfold q3, r4, r3. rewrite !put_nth. cbn [Nat.eqb]. rewrite set_nth_other by discriminate. unfold r2, r1. rewrite !put_nth. cbn [Nat.eqb]. unfold left_of. destruct av; [destruct (nth_error raw 4); reflexivity|]. destruct (nth_error raw 4) as [[| |[|h [|c l]]]|]; reflexivity. }
  assert (Hfin : put 4 o4 (set_nth 1 (VList (front ++ number (length es) :: pairs_of es ++ back)) q3) = raw).
  { apply nth_ext. intros j. rewrite put_nth. destruct (4 =? j)%nat eqn:J4.
    - apply Nat.eqb_eq in J4. subst j. rewrite N4. unfold o4, left_of. clear. destruct av as [|a av]; [destruct (nth_error raw 4); reflexivity|]. destruct (nth_error raw 4) as [[| |[|h [|c l]]]|]; reflexivity.
    - destruct (Nat.eq_dec j 1) as [->|J1]; [rewrite Eroot; eapply set_nth_same, N1|]. rewrite set_nth_other by congruence. unfold q3. rewrite !put_nth.
      assert (Hr4 : nth_error r4 j = nth_error r2 j) by (unfold r4, r3; rewrite put_nth, J4; apply set_nth_other; congruence). rewrite Hr4. unfold r2, r1. rewrite !put_nth.
      destruct (3 =? j)%nat eqn:J3; destruct (5 =? j)%nat eqn:J5.
      + apply Nat.eqb_eq in J3, J5. congruence.
      + apply Nat.eqb_eq in J3. subst j. unfold o3, left_of. clear. destruct pv as [|a pv]; [destruct (nth_error raw 3); reflexivity|]. destruct (nth_error raw 3) as [[| |[|h [|c l]]]|]; reflexivity.
      + apply Nat.eqb_eq in J5. subst j. unfold o5, left_of. clear. destruct cv as [|a cv]; [destruct (nth_error raw 5); reflexivity|]. destruct (nth_error raw 5) as [[| |[|h [|c l]]]|]; reflexivity.
      + reflexivity. }
  destruct es as [|e0 es0] eqn:Ees.
  - cbn [length pairs_of flat_map app] in *. assert (Hq : set_nth 1 (VList (front ++ number 0 :: back)) q3 = q3) by (apply set_nth_id; exact N1). rewrite Hq in Hfin.
    eapply encode_steps0; [exact B5|exact B3|exact Nci|exact N1|exact Ef|exact (Hlo : laid_out _ (dd ++ [number (@length felem [])]))|apply number_mark|].
    assert (N4' : nth_error q3 4 = match left_of av (nth_error raw 4) with Some s => Some s | None => nth_error raw 4 end) by (rewrite <- Hq; apply N4). pose proof (section_enc par_enc _ _ q3 Has N4' A2) as B4. fold o4 in B4. cbn [fe_params]. rewrite B4, Hfin. reflexivity.
  - rewrite <- Ees in *. eapply encode_steps with (es := es); [exact B5|exact B3|exact Nci| |exact Ef|exact Hlo|reflexivity| |].
    + rewrite N1. unfold R1. rewrite Ees. reflexivity.
    + cbn [fe_data]. rewrite Npi. rewrite Forall_forall in He |- *. intros [path e] Hin. specialize (He _ Hin). cbn [fst snd] in *. constructor; [intros at_ Ea; exact (eo_kids He (eq_trans (kids_place_is _) Ea))|exact (eo_leaf He)|].
      apply based_ent; try assumption. apply Hget, Hin.
    + cbn [fe_params]. pose proof (section_enc par_enc _ _ _ Has (N4 (VList (front ++ number (length es) :: pairs_of es ++ back))) A2) as B4. fold o4 in B4. rewrite B4, Hfin. reflexivity.
Qed.
