(** A form is taken apart and comes back. *)
From Coq Require Import String Lia.
From Verif Require Import PyBase PyInt PyText Utf Codecs Brace Spec_Brace Spec_Misc JsonText JsonTextProofs JsonObj Header Pipeline UpdateDict UpdateDictProofs Spec_Stage ObjCode Spec_Obj ObjCodeProofs ObjCodeMain Payload Spec_Payload PayloadProofs
  MetaObj Spec_MetaObj MetaObjBase MetaObjGood MetaObjList MetaObjMain RootSteps FormCode Spec_Form FormElem FormJson FormJsonGood Form27 Form27Json Form Spec_FormObj FormObjElem FormObjBody.
From Verif Require Props_Misc.
Set Implicit Arguments.
Open Scope list_scope.
Open Scope N_scope.
Notation quoted := Spec_Misc.quoted.

(** ** Places *)
Lemma stands_root r data root : stands_in r data root -> root_path r data = Ok root.
Proof. intros H. destruct H as [d|d|d H|d H]; cbn [root_path]; try reflexivity; rewrite H; reflexivity. Qed.
Lemma apart_same root p q : apart p q -> apart (root ++ p) (root ++ q).
Proof. intros H. induction root as [|i root IH]; [exact H|]. cbn [app apart]. right. exact IH. Qed.
Lemma stands_marked r data root y data' : stands_in r data root -> vput (root ++ [1; 1])%nat y data = Ok data' -> root_path r data' = Ok root.
Proof.
  intros H P. destruct H as [d|d|d H|d H]; cbn [root_path]; try reflexivity.
  - rewrite (@vat_apart ([0; 1] ++ [1; 1])%nat [0; 1; 0]%nat _ _ _ ltac:(cbn; lia) P), H. reflexivity.
  - rewrite (@vat_apart ([0; 1; 1] ++ [1; 1])%nat [0; 1; 0]%nat _ _ _ ltac:(cbn; lia) P), H. reflexivity.
Qed.
Lemma vat_one v i l x : nth_error l i = Some x -> vat [i] (VList l) = v -> v = Ok x.
Proof. intros H <-. cbn [vat vget]. rewrite H. reflexivity. Qed.

Section Form.
Variable os : platform.
Variable valid : list N -> bool.
Variable repr : val -> list N.
Variable left : ekind -> val -> jval.
Variable auto : bool.
Variable old_dec : nat -> val -> res (val * jval).
Variable old_enc : nat -> jval -> val -> res val.
Hypothesis Hrepr : forall v, scal v -> Forall scalar (repr v).

Lemma info_sc : Forall scalar (k_info m_obj) /\ Forall scalar (k_enc m_obj). Proof. split; scalars. Qed.
Lemma put_all_other adds : forall h k, ~ In k (map fst adds) -> dget k (put_all adds h) = dget k h.
Proof.
  induction adds as [|[a v] adds IH]; intros h k Hk; [reflexivity|]. cbn [put_all fold_left fst snd map] in *. fold (put_all adds (dset a v h)). rewrite IH by (intros Hi; apply Hk; right; exact Hi). apply dget_dset_other. intros E. apply Hk. left. congruence.
Qed.
Lemma put_all_get adds : forall h k, NoDup (map fst adds) -> dget k h = None -> dget k (put_all adds h) = dget k adds.
Proof.
  induction adds as [|[a v] adds IH]; intros h k Hn Hk; [exact Hk|]. cbn [put_all fold_left fst snd map dget] in *. fold (put_all adds (dset a v h)). inversion Hn as [|? ? Ha Hn']; subst. destruct (str_eqb k a) eqn:E.
  - apply str_eqb_spec in E. subst. rewrite put_all_other by exact Ha. apply dget_dset_same.
  - rewrite IH; [reflexivity|exact Hn'|]. rewrite dget_dset_other; [exact Hk|]. intros E2. rewrite E2, str_eqb_refl in E. discriminate.
Qed.
Lemma put_all_good adds : forall h, hgood h -> Forall (fun e => (fst e = k_info m_obj \/ fst e = k_enc m_obj) /\ scal (snd e)) adds -> hgood (put_all adds h).
Proof.
  induction adds as [|[a v] adds IH]; intros h Hg Ha; [exact Hg|]. cbn [put_all fold_left fst snd]. fold (put_all adds (dset a v h)). inversion Ha as [|? ? [A1 A2] A3]; subst. cbn [fst snd] in *. apply IH; [|exact A3].
  apply hgood_dset; [exact Hg| |exact A2]. destruct A1 as [-> | ->]; apply info_sc.
Qed.
Lemma header_of_extra d k n : header_of (d ++ [(k, Jnum n)]) = header_of d.
Proof. unfold header_of. rewrite fold_left_app. reflexivity. Qed.
Lemma rev_entries name2 h k j : k <> s_name2 -> dget k (rev (flat_map (jentry name2) h)) = Some j -> exists v, j = jv v.
Proof.
  intros Hk H. apply dget_in in H. apply in_rev in H. apply in_flat_map in H. destruct H as (e & _ & H). unfold jentry in H. destruct H as [H|H]; [injection H as _ <-; eauto|]. destruct (str_eqb (fst e) s_name); [|destruct H]. destruct H as [H|[]]. injection H as H _. congruence.
Qed.
Lemma info_plain name2 h (x : header) : info_back (flat_map (jentry name2) h) x = x.
Proof.
  unfold info_back. destruct (dget (k_info m_obj) (rev (flat_map (jentry name2) h))) as [j|] eqn:E; [|reflexivity]. apply rev_entries in E; [|discriminate]. destruct E as (v & ->). destruct v; reflexivity.
Qed.

Definition prefix_ok (prefix : list N) (options : option (list N)) (pid : list N) (hdr : list val) : Prop :=
  (prefix = [] /\ (options = None \/ options = Some [])) \/ (options = Some prefix /\ Props_Misc.top_level pid /\ Props_Misc.own hdr).
Theorem form_parts c prefix parent (src : folder) uuid name locs comment data hdr options pid type adds codes one vs form elems M :
  form_header os src c uuid (prefix ++ name) locs comment data hdr type -> valid uuid = true -> prefix_ok prefix options pid hdr ->
  taken os repr left auto old_dec parent src uuid (f_name c) type adds codes one vs form elems M ->
  exists own bs, form_decode os valid repr left auto old_dec c prefix parent src uuid = Ok (uuid, name, own) /\
    (forall n, ~ form_uses c n -> dget n own = None) /\ (forall n, is_source (f_name c) n -> dget n own = dget n M) /\ (forall (srcs : folder), dget (dotted (f_name c) x_elem) srcs = dget (dotted (f_name c) x_elem) own -> json_read srcs (dotted (f_name c) x_elem) = Ok elems) /\
    dget uuid src = Some (TFile bs) /\
    forall (srcs out : folder), dget (dotted (f_name c) s_json) srcs = dget (dotted (f_name c) s_json) own -> dget (dotted (f_name c) s_idjson) srcs = dget (dotted (f_name c) s_idjson) own -> dget uuid out = None ->
      exists h, marks adds one h /\ form_encode os repr auto old_enc c options pid parent srcs out =
        (' (o, fs) <- rest_of_build os repr auto old_enc parent uuid (f_name c) type form srcs h (dset uuid (TFile bs) out) [uuid] ;; Ok (Some (o, mkbuilt uuid name fs (VList data)))).
Proof.
  intros [(bs & Hf & Hb) (root & version & Hroot & Hver & Htype & (vn & Hv0 & Hvin) & Hv1) (h0 & a & b & r1 & more & tl & Ehdr) Hlocs] Hval Hopt. set (fname := f_name c).
  intros [(f1 & f2 & k & B1 & B2 & B3 & B4) (Gv & Gj & Gf & Ga & Gn) C1].
  pose proof (brace_scal _ _ _ Hb) as Sd.
  assert (Hat : vat (root ++ [1; 1])%nat (VList data) = Ok (VList hdr)).
  { change [1; 1]%nat with ([1] ++ [1])%nat. rewrite app_assoc, (vat_cat _ [1%nat] _ _ Hver). cbn [vat vget]. rewrite Hv1. reflexivity. }
  assert (Sver : scal (VList version)) by exact (scal_vat _ _ _ Sd Hver).
  pose proof (scal_vat _ _ _ Sd Hat) as Sh.
  set (hdr' := h0 :: VList (a :: b :: VStr in_separate_file :: r1) :: quoted name :: locale_list locs more :: quoted comment :: tl).
  assert (Hdec : decode_header valid prefix hdr true = Ok (mkhobj uuid name locs comment, hdr')) by (rewrite Ehdr; apply header_shape; assumption).
  assert (Shf : scal (quoted (prefix ++ name)) /\ scal (locale_list locs more) /\ scal (quoted comment) /\ scal (VStr uuid) /\ scal (VList hdr')).
  { rewrite Ehdr in Sh. assert (K : forall v, In v (h0 :: VList (a :: b :: VStr uuid :: r1) :: quoted (prefix ++ name) :: locale_list locs more :: quoted comment :: tl) -> scal v) by (intros v Hv; eapply scal_list_in; eassumption).
    assert (K1 : scal (VList (a :: b :: VStr uuid :: r1))) by (apply K; right; left; reflexivity).
    assert (K2 : forall v, In v (a :: b :: VStr uuid :: r1) -> scal v) by (intros v Hv; eapply scal_list_in; eassumption).
    split; [apply K; right; right; left; reflexivity|]. split; [apply K; right; right; right; left; reflexivity|]. split; [apply K; right; right; right; right; left; reflexivity|].
    split; [apply K2; right; right; left; reflexivity|]. unfold hdr'. apply scal_list. apply Forall_forall. intros v [<-|[<-|[<-|[<-|[<-|Hv]]]]].
    - apply K. left. reflexivity.
    - apply scal_list. apply Forall_forall. intros w [<-|[<-|[<-|Hw]]]; [apply K2; left; reflexivity|apply K2; right; left; reflexivity|apply (proj1 (scal_str _)); scalars|apply K2; right; right; right; exact Hw].
    - assert (Sq : scal (quoted (prefix ++ name))) by (apply K; right; right; left; reflexivity). apply scal_quoted in Sq. apply Forall_app in Sq. apply quoted_scal. apply Sq.
    - apply K; right; right; right; left; reflexivity.
    - apply K; right; right; right; right; left; reflexivity.
    - apply K; right; right; right; right; right; exact Hv. }
  destruct Shf as (Sn & Sl & Sc & Su & Sh'). apply scal_quoted in Sn, Sc. apply Forall_app in Sn. destruct Sn as [_ Sn].
  destruct (vat_vput (root ++ [1; 1])%nat (VList data) hdr (VList hdr') Hat) as (marked & M1 & M2 & M3).
  pose proof (scal_vput _ _ _ _ Sd Sh' M1) as Sm.
  pose proof (stands_root Hroot) as Rd. pose proof (stands_marked _ Hroot M1) as Rm.
  assert (Vin : existsb (str_eqb vn) form_versions = true) by (apply existsb_exists; exists vn; split; [exact Hvin|apply str_eqb_refl]).
  assert (Vd : vat (root ++ [1; 0])%nat (VList data) = Ok (VStr vn)) by (change [1; 0]%nat with ([1] ++ [0])%nat; rewrite app_assoc, (vat_cat _ [0%nat] _ _ Hver); cbn [vat vget]; rewrite Hv0; reflexivity).
  assert (Vm : vat (root ++ [1; 0])%nat marked = Ok (VStr vn)) by (rewrite (@vat_apart (root ++ [1; 1])%nat (root ++ [1; 0])%nat _ _ _ (apart_same root [1; 1]%nat [1; 0]%nat ltac:(cbn; lia)) M1); exact Vd).
  assert (Fd : form_version root (VList data) = Ok vn) by (unfold form_version; rewrite Vd, Vin; reflexivity).
  assert (Fm : form_version root marked = Ok vn) by (unfold form_version; rewrite Vm, Vin; reflexivity).
  assert (Tm : form_type root marked = Ok (VStr type)).
  { unfold form_type. rewrite (@vat_apart (root ++ [1; 1])%nat (root ++ [1; 3])%nat _ _ _ (apart_same root [1; 1]%nat [1; 3]%nat ltac:(cbn; lia)) M1). change [1; 3]%nat with ([1] ++ [3])%nat. rewrite app_assoc, (vat_cat _ [3%nat] _ _ Hver). cbn [vat vget].
    destruct Htype as [x y z t m|l Hl]; [reflexivity|]. assert (nth_error l 3 = None) as -> by (apply nth_error_None; exact Hl). reflexivity. }
  assert (Stype : Forall scalar type).
  { destruct Htype as [x y z t m|l Hl]; [|scalars]. apply scal_str. eapply scal_list_in; [exact Sver|]. right. right. right. left. reflexivity. }
  set (hh0 := [(s_uuid, VStr uuid); (s_name, VStr name); (s_comment, VStr comment); (s_header, marked); (k_ftype, VStr type)] : header).
  assert (G0 : hgood hh0).
  { split; [apply nodup_strs; reflexivity|]. unfold hh0.
    apply Forall_cons; [split; [cbn [fst]; scalars|exact Su]|]. apply Forall_cons; [split; [cbn [fst]; scalars|apply (proj1 (scal_str _)); exact Sn]|].
    apply Forall_cons; [split; [cbn [fst]; scalars|apply (proj1 (scal_str _)); exact Sc]|]. apply Forall_cons; [split; [cbn [fst]; scalars|exact Sm]|].
    apply Forall_cons; [split; [cbn [fst]; scalars|apply (proj1 (scal_str _)); exact Stype]|]. apply Forall_nil. }
  set (h1 := put_all adds hh0). set (h2 := dset s_obj_version (VStr vn) (ddel s_uuid (dset s_form (VList form) (dset k_fver (VStr vs) h1)))).
  assert (G1 : hgood h1) by (apply put_all_good; assumption).
  assert (Svn : Forall scalar vn) by (apply scal_str; eapply scal_vat; [exact Sd|exact Vd]).
  assert (G2 : hgood h2).
  { unfold h2. apply hgood_dset; [|scalars|apply (proj1 (scal_str _)); exact Svn]. apply hgood_ddel. apply hgood_dset; [|scalars|apply scal_list; exact Gf]. apply hgood_dset; [exact G1|scalars|apply (proj1 (scal_str _)); exact Gv]. }
  assert (K1 : forall q, q <> k_info m_obj -> q <> k_enc m_obj -> dget q h1 = dget q hh0).
  { intros q Q1 Q2. apply put_all_other. intros Hi. apply in_map_iff in Hi. destruct Hi as (e & <- & He). rewrite Forall_forall in Ga. destruct (Ga e He) as [[E|E] _]; congruence. }
  assert (K2 : forall q, q <> s_obj_version -> q <> s_uuid -> q <> s_form -> q <> k_fver -> dget q h2 = dget q h1).
  { intros q Q1 Q2 Q3 Q4. unfold h2. rewrite dget_dset_other by exact Q1. rewrite dget_ddel_other by exact Q2. rewrite !dget_dset_other by assumption. reflexivity. }
  assert (Km : forall q, q = k_info m_obj \/ q = k_enc m_obj -> dget q h2 = dget q adds).
  { intros q [-> | ->]; rewrite K2 by discriminate; apply put_all_get; try exact Gn; reflexivity. }
  assert (K2n : dget s_name2 h2 = None) by (rewrite K2 by discriminate; rewrite K1 by discriminate; reflexivity).
  assert (K2h : dget s_header h2 = Some marked) by (rewrite K2 by discriminate; rewrite K1 by discriminate; reflexivity).
  assert (K2m : dget s_name h2 = Some (VStr name)) by (rewrite K2 by discriminate; rewrite K1 by discriminate; reflexivity).
  assert (K2t : dget k_ftype h2 = Some (VStr type)) by (rewrite K2 by discriminate; rewrite K1 by discriminate; reflexivity).
  assert (K2v : dget s_obj_version h2 = Some (VStr vn)) by apply dget_dset_same.
  assert (K2f : dget s_form h2 = Some (VList form)) by (unfold h2; rewrite dget_dset_other by discriminate; rewrite dget_ddel_other by discriminate; apply dget_dset_same).
  set (jd := flat_map (jentry locs) h2). set (ext := if one then [(k_info m_obj, Jnum [49])] else [] : list (list N * jval)).
  assert (Ej : form_json locs h2 one = Jobj (jd ++ ext)) by reflexivity.
  assert (Gh : jgood (Jobj (jd ++ ext))).
  { pose proof (header_json_good locs h2 G2 (locs_scal _ _ Sl)) as [A1 A2]. change (header_json locs h2) with (Jobj jd) in A1, A2. destruct one; unfold ext; [|rewrite app_nil_r; split; assumption]. split.
    - cbn [numsok] in *. rewrite forallb_app, A1. reflexivity.
    - cbn [jstrs] in *. rewrite flat_map_app. apply Forall_app. split; [exact A2|]. cbn [flat_map app]. constructor; [apply info_sc|constructor]. }
  assert (Gid : jgood (Jobj [(s_uuid, Jstr uuid)])).
  { split; [reflexivity|]. cbn [jstrs flat_map app]. constructor; [scalars|]. constructor; [apply scal_str; exact Su|constructor]. }
  destruct (json_files os _ Gid) as (bid & Wid & Rid). destruct (json_files os _ Gh) as (bhd & Whd & Rhd). destruct (json_files os _ Gj) as (bel & Wel & Rel).
  set (own1 := dset (dotted fname s_idjson) (TFile bid) ([] : folder)). set (own2 := dset (dotted fname s_json) (TFile bhd) own1).
  assert (Jne : dotted fname s_json <> dotted fname s_idjson) by (intros E; apply dotted_inj in E; discriminate).
  assert (Jne2 : dotted fname s_json <> dotted fname x_elem) by (intros E; apply dotted_inj in E; discriminate).
  assert (Jne3 : dotted fname s_idjson <> dotted fname x_elem) by (intros E; apply dotted_inj in E; discriminate).
  assert (Src : forall n, is_source fname n -> n <> dotted fname s_json /\ n <> dotted fname s_idjson /\ n <> dotted fname x_elem).
  { intros n (x & ->). unfold source_name, dotted. rewrite <- !app_assoc. repeat split; intros E; apply app_inv_head in E; injection E as E; discriminate. }
  assert (W1 : json_write os (Jobj [(s_uuid, Jstr uuid)]) [] (dotted fname x_idjson) = Ok own1) by (apply Wid; left; reflexivity).
  assert (W2 : json_write os (form_json locs h2 one) own1 (dotted fname x_json) = Ok own2).
  { rewrite Ej. apply Whd. left. unfold own1. change x_json with s_json. rewrite dget_dset_other by exact Jne. reflexivity. }
  destruct (C1 h2 own2) as (own3 & W3 & W3f & W3m).
  { apply Km. right. reflexivity. }
  { intros n Hn. destruct (Src n Hn) as (X1 & X2 & X3). unfold own2, own1. rewrite !dget_dset_other by assumption. reflexivity. }
  assert (NS : forall s, s = s_json \/ s = s_idjson \/ s = x_elem -> ~ is_source fname (dotted fname s)).
  { intros s Hs Hn. destruct (Src _ Hn) as (X1 & X2 & X3). destruct Hs as [-> |[-> | ->]]; congruence. }
  set (own4 := dset (dotted fname x_elem) (TFile bel) own3).
  assert (W4 : json_write os elems own3 (dotted fname x_elem) = Ok own4).
  { apply Wel. left. rewrite W3f by (apply NS; tauto). unfold own2, own1. rewrite !dget_dset_other by congruence. reflexivity. }
  exists own4, bs. split; [|split; [|split; [|split; [|split]]]].
  - unfold form_decode. rewrite (brace_read_bytes _ _ _ _ _ Hb Hf). cbn [bind]. rewrite Rd. cbn [bind]. rewrite Fd. cbn [bind]. rewrite Hat. cbn [bind vlist]. rewrite Hdec. cbn [bind h_uuid h_name h_comment h_name2]. rewrite M1. cbn [bind]. rewrite Tm. cbn [bind]. fold hh0. rewrite (B1 hh0). cbn [bind]. rewrite B2. cbn [bind]. rewrite B3. cbn [bind]. rewrite B4. cbn [bind].
    fold h1. fold h2. fold fname. rewrite W1. cbn [bind]. rewrite W2. cbn [bind]. rewrite W3. cbn [bind]. rewrite W4. reflexivity.
  - intros n Hn. unfold form_uses in Hn. fold fname in Hn. unfold own4. rewrite dget_dset_other by (intros ->; apply Hn; right; right; left; reflexivity).
    rewrite W3f by (intros (x & ->); apply Hn; right; right; right; exists x; reflexivity). unfold own2, own1. rewrite !dget_dset_other by (intros ->; apply Hn; auto). reflexivity.
  - intros n Hn. unfold own4. rewrite dget_dset_other; [apply W3m; exact Hn|]. apply Src in Hn. tauto.
  - intros srcs Hs. apply Rel. rewrite Hs. apply dget_dset_same.
  - exact Hf.
  - intros srcs out Hs1 Hs2 O.
    assert (Si : dget (dotted fname s_idjson) srcs = Some (TFile bid)).
    { rewrite Hs2. unfold own4. rewrite dget_dset_other by exact Jne3. rewrite W3f by (apply NS; tauto). unfold own2. rewrite dget_dset_other by congruence. apply dget_dset_same. }
    assert (Sj : dget (dotted fname s_json) srcs = Some (TFile bhd)).
    { rewrite Hs1. unfold own4. rewrite dget_dset_other by exact Jne2. rewrite W3f by (apply NS; tauto). apply dget_dset_same. }
    pose proof (header_back locs h2 jd eq_refl G2 K2n) as Hback.
    set (e0 := info_back (jd ++ ext) (header_of (jd ++ ext))).
    assert (E0 : forall q, q <> k_info m_obj -> dget q e0 = dget q h2).
    { intros q Hq. unfold e0, ext. destruct one.
      - rewrite header_of_extra. unfold info_back. rewrite rev_app_distr. cbn [rev app dget]. rewrite str_eqb_refl. rewrite dget_dset_other by exact Hq. apply Hback.
      - rewrite app_nil_r. unfold jd at 1. rewrite info_plain. apply Hback. }
    assert (E0i : dget (k_info m_obj) e0 = if one then Some (VStr [49]) else dget (k_info m_obj) adds).
    { unfold e0, ext. destruct one.
      - rewrite header_of_extra. unfold info_back. rewrite rev_app_distr. cbn [rev app dget]. rewrite str_eqb_refl. rewrite dget_dset_same. reflexivity.
      - rewrite app_nil_r. unfold jd at 1. rewrite info_plain, Hback. apply Km. left. reflexivity. }
    set (e1 := dset s_uuid (VStr uuid) e0).
    assert (E1 : forall q, q <> s_uuid -> q <> k_info m_obj -> dget q e1 = dget q h2) by (intros q Q1 Q2; unfold e1; rewrite dget_dset_other by exact Q1; apply E0; exact Q2).
    assert (Mk : marks adds one e1).
    { split; [unfold e1; rewrite dget_dset_other by discriminate; exact E0i|]. rewrite E1 by discriminate. apply Km. right. reflexivity. }
    exists e1. split; [exact Mk|].
    assert (Wu : brace_write os (VList data) out uuid = Ok (dset uuid (TFile bs) out)) by (apply (brace_write_bytes _ _ _ _ _ Hb); left; exact O).
    assert (Eh : encode_header options pid (mkhobj uuid name [] []) hdr' = Ok hdr).
    { change (encode_header options pid (mkhobj uuid name locs comment) hdr' = Ok hdr).
      assert (Q : Props_Misc.quoted_name hdr (prefix ++ name)) by (rewrite Ehdr; reflexivity).
      destruct Hopt as [(-> & Ho)|(-> & Htop & Hown)].
      - eapply (Props_Misc.C34_no_prefix_restored valid hdr true _ hdr' pid name options); eassumption.
      - eapply (Props_Misc.C34_own_object_restored valid prefix hdr true _ hdr' pid name); eassumption. }
    unfold form_encode. fold fname. change x_idjson with s_idjson. change x_json with s_json. rewrite (Rid _ _ Si), (Rhd _ _ Sj). cbn [bind]. fold e0.
    change (header_of [(s_uuid, Jstr uuid)]) with ([(s_uuid, VStr uuid)] : header). unfold str_field, field. cbn [dget]. rewrite str_eqb_refl. cbn [bind vstr]. fold e1.
    rewrite (E1 s_header) by discriminate. rewrite K2h. cbn [bind]. rewrite Rm. cbn [bind]. rewrite Fm. cbn [bind]. rewrite (E1 s_name) by discriminate. rewrite K2m. cbn [bind vstr].
    rewrite (E1 s_obj_version) by discriminate. rewrite K2v. cbn [bind]. unfold rest_of_build. destruct (encode_code srcs fname form_ext e1 []) as [codes2|]; [|reflexivity]. cbn [bind]. rewrite (E1 k_ftype) by discriminate. rewrite K2t. cbn [bind].
    rewrite (E1 s_form) by discriminate. rewrite K2f. cbn [vlist bind].
    destruct (if is_str (VStr type) t0 then Ok form else code_back codes2 form) as [f3|]; [|reflexivity]. cbn [bind].
    destruct (put_elements repr auto old_enc parent (VStr type) srcs fname f3) as [f4|]; [|reflexivity]. cbn [bind]. rewrite M2. cbn [bind vlist]. rewrite Eh. cbn [bind]. rewrite M3. cbn [bind]. rewrite Wu. cbn [bind].
    destruct (if is_str (VStr type) t0 then _ else _) as [[o1 fs1]|]; reflexivity.
Qed.

Theorem form_core c prefix parent (src : folder) uuid name locs comment data hdr options pid :
  form_at left parent auto old_dec old_enc os src c uuid (prefix ++ name) locs comment data hdr -> valid uuid = true -> prefix_ok prefix options pid hdr ->
  exists own, form_decode os valid repr left auto old_dec c prefix parent src uuid = Ok (uuid, name, own) /\
    (forall n, ~ form_uses c n -> dget n own = None) /\
    forall (srcs out : folder), (forall n, form_uses c n -> dget n srcs = dget n own) ->
      dget uuid out = None -> dget (dotted uuid s_zero) out = None -> dget (dotted uuid s_one) out = None ->
      exists out', form_encode os repr auto old_enc c options pid parent srcs out = Ok (Some (out', mkbuilt uuid name (files_of_form src uuid) (VList data))) /\
        same_entry (dget uuid src) (dget uuid out') /\ same_entry (dget (dotted uuid s_zero) src) (dget (dotted uuid s_zero) out') /\ same_entry (dget (dotted uuid s_one) src) (dget (dotted uuid s_one) out') /\
        (forall n, n <> uuid -> n <> dotted uuid s_zero -> n <> dotted uuid s_one -> dget n out' = dget n out).
Proof.
  intros (type & Hh & Hfiles) Hval Hopt.
  destruct (@form_body os repr left auto old_dec old_enc parent src uuid (f_name c) Hrepr type Hfiles) as (adds & codes & one & vs & form & elems & M & T & CB).
  destruct (@form_parts c prefix parent src uuid name locs comment data hdr options pid type adds codes one vs form elems M Hh Hval Hopt T) as (own & bs & D & D1 & D2 & D3 & D4 & D5).
  exists own. split; [exact D|]. split; [exact D1|]. intros srcs out Hs O O0 O1. destruct (D5 srcs out) as (h & Mk & ->); [apply Hs; left; reflexivity|apply Hs; right; left; reflexivity|exact O|].
  destruct (CB srcs h (dset uuid (TFile bs) out) [uuid] Mk) as (out2 & R1 & R2 & R3 & R4).
  - intros n Hn. rewrite Hs by (right; right; right; exact Hn). apply D2. exact Hn.
  - apply D3. apply Hs. right. right. left. reflexivity.
  - rewrite dget_dset_other; [exact O0|]. intros E. symmetry in E. apply dotted_self in E. exact E.
  - rewrite dget_dset_other; [exact O1|]. intros E. symmetry in E. apply dotted_self in E. exact E.
  - rewrite R1. cbn [bind]. exists out2. split; [reflexivity|]. split; [|split; [exact R2|split; [exact R3|]]].
    + rewrite R4; [|intros E; apply dotted_self in E; exact E|intros E; apply dotted_self in E; exact E]. rewrite dget_dset_same, D4. reflexivity.
    + intros n N1 N2 N3. rewrite R4 by assumption. apply dget_dset_other. congruence.
Qed.
End Form.
