(** The configinfo of a built extension: lemmas for Props_Whole.v. *)
From Coq Require Import String Permutation.
From Verif Require Import PyBase PyInt Utf PyFile PyText PyB64 Cp1251 Codecs Brace Spec_Brace BraceProofs BraceFile BraceMore Container Spec_Container ContainerProofs Pipeline Spec_Pipeline PipelineProofs PipelineMore PipelineItems Spec_Obj ObjCode Spec_Payload PayloadProofs JsonTextProofs MetaObj MetaObjBase Real Root Spec_Root RootVersions RootExt Whole Props_Pipeline Spec_Whole WholeProofs WholeMain.
Open Scope list_scope.
Open Scope Z_scope.

Definition bom : N := 65279.
Lemma bom_encode os s bs : utf8sig_encode (write_nl os s) = Ok bs <-> utf8_encode (write_nl os (bom :: s)) = Ok bs.
Proof.
  rewrite write_nl_cons. change (bom =? LF)%N with false. cbn [app]. unfold utf8sig_encode, utf8_encode. cbn [forallb flat_map]. change (is_surrogate bom) with false. cbn [negb andb].
  destruct (forallb (fun c => negb (is_surrogate c)) (write_nl os s)); cbn [bind]; [|tauto]. change (utf8_char bom) with utf8_bom. tauto.
Qed.
Lemma roots3 a c w : encode_root_object [VList a; VList c; VList w] = Ok ((enc_obj CRLF a ++ [COMMA; LF] ++ enc_obj CRLF c ++ [COMMA; LF]) ++ enc_obj CRLF w).
Proof. unfold encode_root_object. cbn [enc_roots_go enc_root1 bind app]. unfold enc_obj. f_equal. repeat (cbn [app]; rewrite <- ?app_assoc). reflexivity. Qed.
Lemma enc_go_app nl data : forall raw r, enc_roots_go nl raw data = Ok r -> raw <> [] -> exists t, r = raw ++ t /\ match data with [] => t = [] | _ => exists t', t = [COMMA; LF] ++ t' end.
Proof.
  induction data as [|v data IH]; intros raw r H Hne; cbn [enc_roots_go] in H; [injection H as <-; exists []; split; [symmetry; apply app_nil_r|reflexivity]|].
  destruct (enc_root1 nl v) as [x|]; cbn [bind] in H; [|discriminate]. destruct raw as [|c raw]; [congruence|]. apply IH in H; [|discriminate]. destruct H as (t & -> & _).
  exists ([COMMA; LF] ++ x ++ t). split; [rewrite <- !app_assoc; reflexivity|eexists; reflexivity].
Qed.
Lemma roots2_prefix a c rest raw : encode_root_object (VList a :: VList c :: rest) = Ok raw ->
  exists t, raw = (enc_obj CRLF a ++ [COMMA; LF] ++ enc_obj CRLF c) ++ t.
Proof.
  unfold encode_root_object. cbn [enc_roots_go enc_root1 bind app]. unfold enc_obj at 1. cbn [app]. intros H. apply enc_go_app in H; [|discriminate]. destruct H as (t & -> & _). exists t. unfold enc_obj. repeat (cbn [app]; rewrite <- ?app_assoc). reflexivity.
Qed.
Lemma write_nl_inj os x : ~ In CR x -> forall y, write_nl os x = write_nl os y -> x = y.
Proof.
  destruct os; [intros _ y; rewrite !write_nl_posix; auto|]. induction x as [|c x IH]; intros Hx y E.
  - destruct y as [|d y]; [reflexivity|]. rewrite write_nl_cons in E. destruct (d =? LF)%N; discriminate.
  - assert (Hc : c <> CR) by (intros ->; apply Hx; left; reflexivity). assert (Hx' : ~ In CR x) by (intros Q; apply Hx; right; exact Q).
    destruct y as [|d y]; [rewrite write_nl_cons in E; destruct (c =? LF)%N; discriminate|]. rewrite !write_nl_cons in E.
    destruct (N.eqb_spec c LF) as [->|Nc], (N.eqb_spec d LF) as [->|Nd]; cbn [linesep app] in E.
    + injection E as E. rewrite (IH Hx' y E). reflexivity.
    + injection E as <- E. destruct y as [|e y]; [discriminate|]. rewrite write_nl_cons in E. destruct (N.eqb_spec e LF) as [->|Ne]; cbn [linesep app] in E; [discriminate|]. injection E as Q _. congruence.
    + injection E as -> _. congruence.
    + injection E as -> E. rewrite (IH Hx' y E). reflexivity.
Qed.
(** neither a comma nor a line end is in the mark *)
Lemma contains_cut p s t : Forall (fun c => ~ In c p) s -> p <> [] -> contains p (t ++ s) -> contains p t.
Proof.
  intros Hs Hp (a & b & E).
  assert (exists l1, t = (a ++ p) ++ l1) as [l1 ->].
  { rewrite app_assoc in E. apply app_eq_app in E. destruct E as (l & [[E1 E2]|[E1 E2]]); [exists l; exact E1|].
    destruct l as [|c l]; [exists []; rewrite !app_nil_r in *; symmetry; exact E1|]. exfalso.
    (* t ++ (c::l) = a ++ p, s = (c::l) ++ b : the last character of p lies in s *)
    destruct (exists_last Hp) as (p' & z & ->). destruct (@exists_last _ (c :: l)) as (l' & y & El); [discriminate|]. rewrite El in *.
    rewrite !app_assoc in E1. apply app_inj_tail in E1. destruct E1 as [_ ->]. rewrite E2 in Hs. rewrite Forall_forall in Hs. apply (Hs y); [apply in_or_app; left; apply in_or_app; right; left; reflexivity|apply in_or_app; right; left; reflexivity]. }
  exists a, l1. rewrite app_assoc. reflexivity.
Qed.

Lemma raw_scalar data raw : canonical data -> Forall scalar (concat (flat_map leaves data)) -> encode_root_object data = Ok raw -> Forall scalar raw.
Proof.
  intros Hc Hs Hr. assert (Hraw : raw = roots_text CRLF data).
  { destruct Hc as (_ & H & _). unfold encode_root_object in Hr. rewrite encode_roots in Hr by exact H. congruence. }
  apply Forall_forall. intros c Hin. subst raw. apply in_roots_text in Hin; [|apply Hc]. destruct Hin as [Hm|Hin]; [apply BraceMore.mark_scalar; exact Hm|]. rewrite Forall_forall in Hs. auto.
Qed.

Lemma scal_cons x l : scal (VList (x :: l)) <-> scal x /\ scal (VList l).
Proof. unfold scal. cbn [leaves flat_map]. rewrite concat_app, Forall_app. reflexivity. Qed.
Section I.
Variable os : platform.
(** the text of the new configinfo *)
Lemma info_text v copy rest bs0 bs : brace_bytes os (VList [VStr [48%N]; v] :: copy :: rest) bs0 -> unmarked os bs0 -> brace_bytes os (new_info v copy) bs ->
  exists p1, ~ contains Spec_Pipeline.mark_text p1 /\ ~ In CR p1 /\ Forall scalar p1 /\ utf8_encode (write_nl os (p1 ++ Spec_Pipeline.mark_text)) = Ok bs /\
    forall w new, canonical [VList [VStr [48%N]; v]; copy; VList w] -> Forall scalar (concat (flat_map leaves [VList [VStr [48%N]; v]; copy; VList w])) ->
      utf8_encode (write_nl os (p1 ++ enc_obj CRLF w)) = Ok new -> brace_bytes os [VList [VStr [48%N]; v]; copy; VList w] new.
Proof.
  intros (C0 & S0 & W0) (x & D0 & Hcr & Hmk) (C & Sc & W).
  assert (exists c, copy = VList c) as [c ->]. { destruct C as (_ & F & _). apply Forall_cons_iff in F. destruct F as [_ F]. apply Forall_cons_iff in F. destruct F as [(l & -> & _) _]. exists l. reflexivity. }
  unfold brace_file_write in W0, W. destruct (encode_root_object (VList [VStr [48%N]; v] :: VList c :: rest)) as [raw0|] eqn:E0; [|discriminate].
  destruct (utf8sig_encode (write_nl os raw0)) as [b0|] eqn:Eb0; [|discriminate]. apply pair_equal_spec in W0. destruct W0 as [_ W0]. subst b0.
  pose proof (@raw_scalar _ _ C0 S0 E0) as Hsc0. apply roots2_prefix in E0. destruct E0 as [t E0]. apply bom_encode in Eb0.
  assert (Hsb : Forall scalar (bom :: raw0)) by (constructor; [split; reflexivity|exact Hsc0]).
  assert (Ex : x = bom :: raw0).
  { assert (Hs : Forall scalar (write_nl os (bom :: raw0))) by (apply scalar_write_nl, Hsb).
    rewrite (utf8_encode_ok _ Hs) in Eb0. assert (Eb : bs0 = flat_map utf8_char (write_nl os (bom :: raw0))) by congruence. rewrite Eb, (utf8_decode_ok _ Hs) in D0.
    apply (@write_nl_inj os); [exact Hcr|]. congruence. }
  set (pre := enc_obj CRLF [VStr [48%N]; v] ++ [COMMA; LF] ++ enc_obj CRLF c) in *. subst x raw0.
  assert (Hpre : bom :: pre ++ t = (bom :: pre) ++ t) by reflexivity. rewrite Hpre in *.
  assert (Hp1 : Forall scalar (bom :: pre)) by (apply Forall_app in Hsb; apply Hsb).
  exists ((bom :: pre) ++ [COMMA; LF]). split; [|split; [|split; [|split]]].
  - intros Q. apply contains_cut in Q; [|repeat constructor; intros Q'; repeat (destruct Q' as [Q'|Q']; [discriminate|]); exact Q'|discriminate]. apply Hmk, contains_app_l, Q.
  - intros Q. apply in_app_or in Q. destruct Q as [Q|Q]; [apply Hcr, in_or_app; left; exact Q|]. destruct Q as [Q|[Q|[]]]; discriminate.
  - apply Forall_app. split; [exact Hp1|]. repeat constructor; reflexivity.
  - unfold new_info in W. rewrite roots3 in W. destruct (utf8sig_encode _) as [b|] eqn:Eb in W; [|discriminate]. apply pair_equal_spec in W. destruct W as [_ W]. subst b.
    apply bom_encode in Eb. rewrite <- Eb. f_equal. f_equal. unfold pre. change Spec_Pipeline.mark_text with (enc_obj CRLF [VStr versions_word]). cbn [app]. f_equal. repeat (cbn [app]; rewrite <- ?app_assoc). reflexivity.
  - intros w new Cw Sw Ew. split; [exact Cw|]. split; [exact Sw|]. unfold brace_file_write. rewrite roots3.
    assert (Q : utf8sig_encode (write_nl os ((enc_obj CRLF [VStr [48%N]; v] ++ [COMMA; LF] ++ enc_obj CRLF c ++ [COMMA; LF]) ++ enc_obj CRLF w)) = Ok new).
    { apply bom_encode. rewrite <- Ew. f_equal. f_equal. unfold pre. change Spec_Pipeline.mark_text with (enc_obj CRLF [VStr versions_word]). cbn [app]. f_equal. repeat (cbn [app]; rewrite <- ?app_assoc). reflexivity. }
    rewrite Q. reflexivity.
Qed.

(** the list of digests *)
Lemma sha_leaf s : sha1_text s -> leaf_ok s /\ Forall scalar s.
Proof.
  intros H. pose proof (sha1_unfolded s H) as (U1 & U2 & _). destruct H as [L F]. split; [|eapply Forall_impl; [|exact F]; intros c Hc; apply (b64_char c Hc)].
  split; [intros ->; discriminate|]. split; [|split; [exact U1|split; [exact U2|left; unfold zlen in L; lia]]]. left.
  eapply Forall_impl; [|exact F]. intros c Hc. unfold plain_char. intros Hi. cbn in Hi.
  repeat (destruct Hi as [<-|Hi]; [destruct Hc as [Hc|Hc]; discriminate|]). exact Hi.
Qed.
Lemma digest_elems digest l : Forall (fun e : list N * list N => fits (fst e)) l -> (forall d, sha1_text (digest d)) ->
  elems_ok false (flat_map (fun e => [VStr ([34%N] ++ fst e ++ [34%N]); VStr (digest (snd e))]) l) /\ Forall scal (flat_map (fun e => [VStr ([34%N] ++ fst e ++ [34%N]); VStr (digest (snd e))]) l).
Proof.
  intros H Hs. induction H as [|e l He Hl [IH1 IH2]]; [split; constructor|]. cbn [flat_map app]. destruct (sha_leaf _ (Hs (snd e))) as [A B]. split.
  - apply e_leaf; [exact (quoted_leaf He)|]. apply e_leaf; [exact A|exact IH1].
  - constructor; [|constructor; [|exact IH2]].
    + apply (proj1 (scal_str _)). destruct He as (_ & _ & _ & He). constructor; [split; reflexivity|]. apply Forall_app. split; [exact He|]. constructor; [split; reflexivity|constructor].
    + apply (proj1 (scal_str _)). exact B.
Qed.
Lemma signed_ok digest v copy rest bs others : brace_bytes os (VList [VStr [48%N]; v] :: copy :: rest) bs -> Forall (fun e : list N * list N => fits (fst e)) others -> zlen others < 2 ^ 31 -> (forall d, sha1_text (digest d)) ->
  canonical [VList [VStr [48%N]; v]; copy; digest_list digest others] /\ Forall scalar (concat (flat_map leaves [VList [VStr [48%N]; v]; copy; digest_list digest others])).
Proof.
  intros (C & Sx & _) Hf Hz Hs. destruct (@digest_elems digest others Hf Hs) as [E1 E2].
  assert (Ec : zlen others = Z.of_nat (length others)) by reflexivity. unfold digest_list. rewrite Ec in *. split.
  - destruct C as (_ & F & _). split; [discriminate|]. split; [|intros E; discriminate]. apply Forall_cons_iff in F. destruct F as [F1 F]. apply Forall_cons_iff in F. destruct F as [F2 _].
    constructor; [exact F1|]. constructor; [exact F2|]. constructor; [|constructor]. eexists. split; [reflexivity|]. pose proof (@count_leaf (length others) Hz) as Lf. apply o_list; [discriminate| |].
    + cbn [first_ok]. destruct (starts hash_base64 (str_of_int (Z.of_nat (length others)))) eqn:E; [|reflexivity]. exfalso. apply starts_spec in E. destruct E as [t E].
      assert (Hi : In 35%N (str_of_int (Z.of_nat (length others)))) by (rewrite E; left; reflexivity). apply str_of_int_chars in Hi. lia.
    + apply e_leaf; [exact Lf|exact E1].
  - change (scal (VList (VList [VStr [48%N]; v] :: copy :: rest))) in Sx.
    change (scal (VList [VList [VStr [48%N]; v]; copy; VList (VStr (str_of_int (Z.of_nat (length others))) :: flat_map (fun e => [VStr ([34%N] ++ fst e ++ [34%N]); VStr (digest (snd e))]) others)])).
    rewrite !scal_cons in *. destruct Sx as (A & B & _). split; [exact A|]. split; [exact B|]. split; [|apply scal_list; constructor]. split; [|apply scal_list; exact E2].
    apply (proj1 (scal_str _)). apply Forall_forall. intros c Hc. apply str_of_int_chars in Hc. apply small_scalar. lia.
Qed.
Lemma versions_line_obj digest others : zlen others < 2 ^ 31 -> Forall (fun e : list N * list N => fits (fst e)) others -> (forall d, sha1_text (digest d)) ->
  exists w, digest_list digest others = VList w /\ versions_line (str_of_int (zlen others)) digest others = enc_obj CRLF w.
Proof.
  intros Hz Hf Hs. eexists. split; [reflexivity|]. unfold enc_obj, versions_line. cbn [app]. f_equal. f_equal.
  replace (VStr (str_of_int (zlen others)) :: flat_map (fun e => [VStr (34%N :: fst e ++ [34%N]); VStr (digest (snd e))]) others)
    with (map VStr (str_of_int (zlen others) :: version_fields digest others)).
  - symmetry. apply enc_elems_strs. constructor; [apply count_unfolded; split; [apply zlen_nonneg|exact Hz]|]. unfold version_fields. revert Hf. clear - Hs.
    induction 1 as [|e l A Hl IH]; cbn [flat_map app]; [constructor|]. constructor; [apply unfolded_quoted; destruct A as (A & _); unfold zlen; lia|]. constructor; [apply sha1_unfolded, Hs|exact IH].
  - cbn [map]. f_equal. unfold version_fields. generalize others. clear. induction others as [|e l IH]; [reflexivity|]. cbn [flat_map app map]. rewrite IH. reflexivity.
Qed.
End I.

Section B.
Variable deflate : list N -> list N.
Variable digest : list N -> list N.
Variable os : platform.
Variable inf : inflater.
Hypothesis Hinf : forall d, restores_promptly inf (deflate d) d.
Hypothesis Hsha : forall d, sha1_text (digest d).

(** with configinfo *)
Lemma rebuilt_info src rest files bs0 bs v copy more order time stamp : rebuilt src f_configinfo rest files -> packable_names src rest -> In (f_configinfo, Some (TFile bs)) files ->
  brace_bytes os (VList [VStr [48%N]; v] :: copy :: more) bs0 -> unmarked os bs0 -> brace_bytes os (new_info v copy) bs ->
  rest <> [] -> zlen rest < 2 ^ 31 -> Forall fits rest -> listing_order order -> times_ok time -> stamps_ok stamp (f_configinfo :: rest) ->
  exists others new, brace_bytes os [VList [VStr [48%N]; v]; copy; digest_list digest others] new /\
    (packed_size deflate stamp time (dset f_configinfo (TFile new) (on_disk files)) < 2147483647 ->
     exists bytes M, pack deflate digest os stamp [([48%N], order (to_nodes time (on_disk files)))] = Ok bytes /\
       (forall n fuel, (2 <= n)%nat -> (M <= fuel)%nat -> exists stored, extract_all n fuel bytes = Ok [stored] /\ filter (fun e => negb (str_eqb (fst e) f_configinfo)) stored = others) /\
       forall sched n fuel depth, any_order sched -> (2 <= n)%nat -> (M <= fuel)%nat ->
       exists src', unpack inf n fuel depth sched bytes = Ok [src'] /\ same_folder [f_configinfo] (f_configinfo :: rest) src src' /\ dget f_configinfo src' = Some (TFile new)).
Proof.
  intros Hr Hp Hv Hb0 Hum Hb Hne Hz Hfit Hord Ht Hst. destruct (@rebuilt_folder _ _ _ _ _ Hr Hp Hv) as (fo & -> & Hnd & P & Hns & Hin & Hall).
  rewrite (on_disk_all fo Hnd) in *.
  destruct (@info_text os v copy more bs0 bs Hb0 Hum Hb) as (p1 & Q1 & Q2 & Q3 & Q4 & Q5).
  apply in_split in Hin. destruct Hin as (fa & fb & ->).
  assert (P2 : Permutation ((f_configinfo, TFile bs) :: fa ++ fb) (fa ++ (f_configinfo, TFile bs) :: fb)) by apply Permutation_middle.
  set (ce := mkent f_configinfo (fst (time [f_configinfo])) (snd (time [f_configinfo])) bs).
  set (items := map (item_at time) (fa ++ fb)).
  assert (Hrest : Permutation rest (map fst (fa ++ fb))).
  { apply (@Permutation_cons_inv _ rest (map fst (fa ++ fb)) f_configinfo). etransitivity; [exact P|]. apply Permutation_sym. change (f_configinfo :: map fst (fa ++ fb)) with (map fst ((f_configinfo, TFile bs) :: fa ++ fb)). apply Permutation_map, P2. }
  assert (Hin_ : forall n t, In (n, t) (fa ++ fb) -> In n rest /\ In (n, t) (fa ++ (f_configinfo, TFile bs) :: fb)).
  { intros n t H. split; [apply (Permutation_in _ (Permutation_sym Hrest)); apply in_map_iff; exists (n, t); auto|]. apply (Permutation_in _ P2). right. exact H. }
  assert (Hold : forall n t, In (n, t) (fa ++ fb) -> In n rest /\ exists t0, dget n src = Some t0 /\ packable t0 /\ same_entry (Some t0) (Some t)).
  { intros n t H. destruct (Hin_ n t H) as [A B]. split; [exact A|]. destruct (Hall n t B) as [[-> _]|(_ & _ & C)]; [contradiction|exact C]. }
  assert (Hfl : forall n t, In (n, t) (fa ++ fb) -> valid_item (item_at time (n, t)) /\ flat t).
  { intros n t H. destruct (Hold n t H) as (_ & t0 & _ & Pk & Sm). exact (packable_item time n t0 t Ht Pk Sm). }
  assert (Hflat : forall bs' n t, In (n, t) (fa ++ (f_configinfo, TFile bs') :: fb) -> flat t).
  { intros bs' n t H. apply in_app_or in H. destruct H as [H|[H|H]]; [apply (Hfl n t), in_or_app; left; exact H| |apply (Hfl n t), in_or_app; right; exact H].
    apply pair_equal_spec in H. destruct H as [_ <-]. exact Logic.I. }
  rewrite (nodes_items time _ (Hflat bs)). pose proof (Hord (map item_node (map (item_at time) (fa ++ (f_configinfo, TFile bs) :: fb)))) as Po.
  apply Permutation_sym in Po. apply Permutation_map_inv in Po. destruct Po as (all & Eo & Po). rewrite Eo.
  assert (Pall : Permutation (Plain ce :: items) all).
  { transitivity (map (item_at time) (fa ++ (f_configinfo, TFile bs) :: fb)); [|exact Po]. change (Plain ce :: items) with (map (item_at time) ((f_configinfo, TFile bs) :: fa ++ fb)). apply Permutation_map, P2. }
  assert (Hnames : map i_name items = map fst (fa ++ fb)) by apply item_at_names.
  assert (Hndn : NoDup (map i_name (Plain ce :: items))).
  { change (NoDup (f_configinfo :: map i_name items)). rewrite Hnames. change (NoDup (map fst ((f_configinfo, TFile bs) :: fa ++ fb))). apply (Permutation_NoDup (Permutation_sym (Permutation_map fst P2))), Hnd. }
  assert (Hzi : zlen items = zlen rest) by (unfold items; rewrite zlen_map; unfold zlen; rewrite (Permutation_length Hrest), map_length; reflexivity).
  destruct (@info_pipeline deflate digest os inf stamp ce items p1 all) as (its & new & Pi & Ai & En & K).
  - reflexivity.
  - intros E. apply Hne. apply Permutation_nil. apply (Permutation_trans (l' := map fst (fa ++ fb))); [|apply Permutation_sym, Hrest]. rewrite <- Hnames, E. constructor.
  - exact Hndn.
  - exact Pall.
  - lia.
  - rewrite Hnames. apply (Permutation_Forall Hrest). apply Forall_forall. intros n Hn. split; [apply (Hp n Hn)|]. rewrite Forall_forall in Hfit. destruct (Hfit n Hn) as [A _]. unfold zlen. lia.
  - apply Forall_forall. intros i Hi. apply in_map_iff in Hi. destruct Hi as ([n t] & <- & Hi). apply (Hfl n t Hi).
  - intros n es Hi. apply in_map_iff in Hi. destruct Hi as ([m t] & E & Hi). unfold item_at in E. cbn [fst snd] in E. destruct t as [d|l]; [discriminate|]. injection E as -> _.
    rewrite Hnames. intros Q. apply (Permutation_in _ (Permutation_sym Hrest)) in Q. destruct (Hold _ _ Hi) as (Hn & t0 & E0 & _ & Sm). destruct t0 as [d|l0]; [destruct Sm|].
    exact (proj2 (proj2 (Hp n Hn)) l0 E0 Q).
  - exact Hsha.
  - exact Hinf.
  - exact Q1.
  - exact Q2.
  - exact Q3.
  - exact Q4.
  - intros n Hn. apply Hst. change (map i_name (Plain ce :: items)) with (f_configinfo :: map i_name items) in Hn. rewrite Hnames in Hn. destruct Hn as [Hn|Hn]; [left; exact Hn|right; apply (Permutation_in _ (Permutation_sym Hrest)), Hn].
  - set (others := map (stored_pair deflate) its) in *.
    assert (Hoz : zlen others = zlen its) by (unfold others; apply zlen_map).
    assert (Hiz : zlen its = zlen items) by (unfold zlen; rewrite (Permutation_length Pi); reflexivity).
    assert (Hof : Forall (fun e : list N * list N => fits (fst e)) others).
    { apply Forall_forall. intros e He. unfold others in He. apply in_map_iff in He. destruct He as (i & <- & Hi). cbn [stored_pair fst]. rewrite Forall_forall in Hfit. apply Hfit.
      apply (Permutation_in _ (Permutation_sym Hrest)). rewrite <- Hnames. apply in_map. apply (Permutation_in _ (Permutation_sym Pi)), Hi. }
    assert (Hol : zlen others < 2 ^ 31) by lia.
    destruct (@versions_line_obj digest others Hol Hof Hsha) as (w & Ew & El). rewrite <- Hoz, El in En.
    destruct (@signed_ok os digest v copy more bs0 others Hb0 Hof Hol Hsha) as [Cw Sw]. rewrite Ew in Cw, Sw.
    exists others, new. rewrite Ew. split; [exact (Q5 w new Cw Sw En)|].
    assert (Hset : dset f_configinfo (TFile new) (fa ++ (f_configinfo, TFile bs) :: fb) = fa ++ (f_configinfo, TFile new) :: fb).
    { clear - Hnd. induction fa as [|[k t] fa IH]; [reflexivity|]. cbn [app dset]. cbn [app map fst] in Hnd. inversion Hnd as [|x l A B]. subst.
      destruct (str_eqb f_configinfo k) eqn:E; [|rewrite IH by exact B; reflexivity]. exfalso. apply str_eqb_spec in E. subst k. apply A. rewrite map_app. apply in_or_app. right. left. reflexivity. }
    rewrite Hset. intros Hsz. destruct K as (bytes & M & B1 & B2 & B3).
    { unfold packed_size, stored_listing in Hsz. erewrite perm_size; [exact Hsz|]. unfold packed_entries. rewrite map_map.
      change (Plain (with_data ce new) :: items) with (map (item_at time) ((f_configinfo, TFile new) :: fa ++ fb)). apply Permutation_map, Permutation_map, Permutation_middle. }
    exists bytes, M. split; [exact B1|]. split; [exact B2|]. intros sched n fuel depth H1 H2 H3. destruct (B3 sched n fuel depth H1 H2 H3) as (items' & src' & P' & F & E).
    exists src'. split; [exact E|].
    destruct (@back_folder time (fa ++ (f_configinfo, TFile new) :: fb) items' src') as (Pn & Hn' & Hs); [| | |exact F|].
    + rewrite map_app in *. exact Hnd.
    + apply Hflat.
    + etransitivity; [|exact P']. change (Plain (with_data ce new) :: items) with (map (item_at time) ((f_configinfo, TFile new) :: fa ++ fb)). apply Permutation_map, Permutation_sym, Permutation_middle.
    + split.
      * split; [|split; [exact Hn'|]].
        { etransitivity; [exact P|]. etransitivity; [|exact Pn]. rewrite !map_app. reflexivity. }
        intros m Hm Hno. destruct Hm as [<-|Hm]; [exfalso; apply Hno; left; reflexivity|].
        apply (Permutation_in _ Hrest) in Hm. apply in_map_iff in Hm. destruct Hm as ([k t] & Ek & Hk). cbn [fst] in Ek. subst k.
        destruct (Hold m t Hk) as (_ & t0 & E0 & _ & Sm). rewrite E0. eapply same_trans; [exact Sm|]. apply (Hs m t).
        apply (Permutation_in _ (Permutation_middle fa fb (f_configinfo, TFile new))). right. exact Hk.
      * assert (Q : In (f_configinfo, TFile new) (fa ++ (f_configinfo, TFile new) :: fb)) by (apply in_or_app; right; left; reflexivity).
        pose proof (Hs _ _ Q) as Q'. destruct (dget f_configinfo src') as [[d|l]|]; cbn [same_entry] in Q'; [congruence|destruct Q'|destruct Q'].
Qed.
End B.
