(** A form is built with another module than the one that was taken out of it. *)
From Coq Require Import String Lia.
From Verif Require Import PyBase PyInt PyText Utf Cp1251 Codecs Brace Spec_Brace Spec_Misc JsonText JsonTextProofs JsonObj Header Directives Pipeline UpdateDict UpdateDictProofs Spec_Stage ObjCode Spec_Obj ObjCodeProofs ObjCodeMain ObjCodeEdit Payload Spec_Payload PayloadProofs
  MetaObj Spec_MetaObj MetaObjBase MetaObjGood MetaObjList MetaObjMain FormCode Spec_Form FormProofs FormElem FormJson FormJsonGood Form27 Form27Json Form Spec_FormObj FormObjElem FormObjBody FormObjMain.
From Verif Require Props_Misc.
Set Implicit Arguments.
Open Scope list_scope.
Open Scope N_scope.

(** ** Texts *)
Lemma hidden_is x y : hidden x y -> y = comment_directives x.
Proof.
  induction 1 as [|d r y Hd Hr IH|c x y Hc Hx IH]; [reflexivity| |].
  - cbn [comment_directives]. assert (directive_at (d ++ r) = true) as -> by (apply directive_at_spec; eauto). cbn [andb]. change (10 =? LF) with true. cbn [andb]. rewrite IH. reflexivity.
  - cbn [comment_directives]. destruct (N.eqb_spec c LF) as [-> |Hn]; cbn [andb]; [|rewrite IH; reflexivity]. destruct (directive_at x) eqn:E; [|rewrite IH; reflexivity].
    apply directive_at_spec in E. destruct E as (d & r & Hd & ->). exfalso. eapply Hc; [reflexivity|exact Hd|reflexivity].
Qed.
Lemma text_in_store os e bs t : text_in os e bs t -> text_store os e t = Ok bs.
Proof.
  unfold text_store. intros [(-> & H)|[(-> & r & -> & H)|(-> & H)]].
  - change (codec_encode n_utf8 (write_nl os t)) with (utf8_encode (write_nl os t)). apply utf8_decode_encode. exact H.
  - change (codec_encode n_sig (write_nl os t)) with (utf8sig_encode (write_nl os t)). unfold utf8sig_encode. rewrite (utf8_decode_encode _ _ H). reflexivity.
  - change (codec_encode n_1251 (write_nl os t)) with (cp1251_encode (write_nl os t)). apply cp1251_decode_encode. exact H.
Qed.
Lemma source_read fname (srcs : folder) t' : source_text (dget (source_name fname m_obj s_bsl) srcs) t' ->
  match dget (source_name fname m_obj s_bsl) srcs with None => t' = [] | Some (TFile sb) => text_load e_utf8sig sb = Ok t' | Some (TDir _) => False end.
Proof.
  unfold source_text. destruct (dget _ srcs) as [[sb|fo]|]; auto. intros (x & Hx & ->). unfold text_load. change (codec_decode e_utf8sig sb) with (utf8sig_decode sb). rewrite utf8sig_strip, Hx. reflexivity.
Qed.
Lemma source_code_back fname (srcs : folder) h2 i t' : source_text (dget (source_name fname m_obj s_bsl) srcs) t' -> dget (k_info m_obj) h2 = Some i -> vtruthy i = true -> enc_encrypted (enc_of h2 m_obj) = None ->
  encode_code srcs fname form_ext h2 [] = Ok [(m_obj, CText t')].
Proof.
  intros Hs Hi Hv He2. apply source_read in Hs. unfold form_ext. cbn [encode_code]. unfold encode_one. rewrite Hi, Hv, He2. unfold txt_read. destruct (dget _ srcs) as [[sb|fo]|].
  - rewrite Hs. reflexivity.
  - destruct Hs.
  - subst. reflexivity.
Qed.
Lemma source_kept fname (t t2 bsl : list N) : text_load e_utf8sig bsl = Ok t2 -> (t = [] -> t2 = []) -> source_text (dget (source_name fname m_obj s_bsl) (FormObjBody.module_file fname t bsl)) t2.
Proof.
  intros Hl Ht. destruct t as [|a t]; [exact (Ht eq_refl)|]. cbn [FormObjBody.module_file dget]. rewrite str_eqb_refl. cbn [source_text]. unfold text_load in Hl. change (codec_decode e_utf8sig bsl) with (utf8sig_decode bsl) in Hl. rewrite utf8sig_strip in Hl.
  destruct (utf8_decode (strip_bom bsl)) as [x|] eqn:E; [|discriminate]. cbn [bind] in Hl. exists x. split; [reflexivity|congruence].
Qed.
Lemma load_scalar bsl t : text_load e_utf8sig bsl = Ok t -> Forall scalar t.
Proof.
  intros Hl. unfold text_load in Hl. change (codec_decode e_utf8sig bsl) with (utf8sig_decode bsl) in Hl. rewrite utf8sig_strip in Hl.
  destruct (utf8_decode (strip_bom bsl)) as [x|] eqn:E; [|discriminate]. cbn [bind] in Hl. assert (t = univ_nl x) as -> by congruence. apply scalar_univ_nl. eapply utf8_decode_scalar. exact E.
Qed.
Lemma read_encoding (fo : folder) name mbs t c e : dget name fo = Some (TFile mbs) -> module_text mbs t -> read_raw_code fo name true = Ok (c, e) -> encoding_of mbs e.
Proof.
  intros Hd Hm H. unfold read_raw_code, txt_read, text_load in H. rewrite Hd in H. destruct Hm as [t Ht|t e0 He Ht].
  - rewrite dc_utf8, Ht in H. cbn [bind] in H. destruct (starts utf8_bom mbs) eqn:Es.
    + rewrite detect_sig in H by exact Es. apply starts_spec in Es. destruct Es as (r & ->). assert (e = e_utf8sig) as -> by congruence. change e_utf8sig with n_sig. eapply en_mark; [reflexivity|exact Ht].
    + rewrite (detect_plain _ _ Ht Es) in H. assert (e = e_utf8) as -> by congruence. change e_utf8 with n_utf8. eapply en_plain; [|exact Ht]. intros r ->. assert (starts utf8_bom (utf8_bom ++ r) = true) by (apply starts_spec; eauto). congruence.
  - rewrite (err_unicode _ _ He) in He; rewrite dc_utf8, He in H. cbn [bind] in H. rewrite dc_cp, Ht in H. cbn [bind] in H. assert (e = e_cp1251) as -> by congruence. change e_cp1251 with n_1251. eapply en_old; eassumption.
Qed.
Lemma encoding_once bs e e2 : encoding_of bs e -> encoding_of bs e2 -> e = e2.
Proof. intros H H2. destruct H, H2; try reflexivity; try congruence; subst; exfalso; eauto. Qed.

Section Edit.
Variable os : platform.
Variable valid : list N -> bool.
Variable repr : val -> list N.
Variable left : ekind -> val -> jval.
Variable auto : bool.
Variable old_dec : nat -> val -> res (val * jval).
Variable old_enc : nat -> jval -> val -> res val.
Variable parent : option (list N).
Hypothesis Hrepr : forall v, scal v -> Forall scalar (repr v).

Section Body.
Variable src : folder.
Variable uuid : list N.
Variable fname : list N.
(** what stands in the new container folder *)
Definition rebuilt (out out2 : folder) (zero : tree) : Prop :=
  dget (dotted uuid s_zero) out2 = Some zero /\ same_entry (dget (dotted uuid s_one) src) (dget (dotted uuid s_one) out2) /\ forall n, n <> dotted uuid s_zero -> n <> dotted uuid s_one -> dget n out2 = dget n out.

Lemma edit_managed bs l text : dget (dotted uuid s_zero) src = Some (TFile bs) -> brace_bytes os l bs -> managed_is left parent l text -> second_is os src uuid ->
  exists adds codes one vs form elems M, taken os repr left auto old_dec parent src uuid fname t1 adds codes one vs form elems M /\ source_text (dget (source_name fname m_obj s_bsl) M) text /\
    forall srcs h2 (out : folder) files t' c l4 bs', marks adds one h2 -> source_text (dget (source_name fname m_obj s_bsl) srcs) t' -> json_read srcs (dotted fname x_elem) = Ok elems ->
      dget (dotted uuid s_zero) out = None -> dget (dotted uuid s_one) out = None -> getset_form_code (literal t') l = Ok (c, l4) -> brace_bytes os l4 bs' ->
      exists out2, rest_of_build os repr auto old_enc parent uuid fname t1 form srcs h2 out files = Ok (out2, files ++ here uuid src [s_zero; s_one]) /\ rebuilt out out2 (TFile bs').
Proof.
  intros Hd Hb Hm Hs. pose proof (brace_scal _ _ _ Hb) as Sl. apply scal_lsc in Sl.
  destruct (@managed_cycle_any left parent repr auto old_dec old_enc _ _ Hm Sl) as (l1 & l2 & (Tc & Tb) & St & D & _ & Any).
  destruct (@ecycle_any left parent repr auto old_dec old_enc l1 l2 (fun t' l3 l4 => exists c, encode_form t' l2 = Ok l3 /\ getset_form_code (literal t') l = Ok (c, l4))) as (vs & elems & Sv & J & S2 & Eo & Ei).
  { intros t'. destruct (Any t') as (l3 & l4 & c & A1 & A2 & A3). exists l3, l4. split; [exists c; auto|exact A3]. }
  destruct (@second_cycle os src uuid [VList l1] Hs ltac:(discriminate) eq_refl) as (rest & R1 & R2 & R3).
  destruct (source_cycle os text St) as (bsl & B1 & B2); [exact Tc|exact Tb|].
  exists [(k_info m_obj, VStr code_mark)], [(m_obj, CText text)], false, vs, (VList l2 :: rest), elems, (FormObjBody.module_file fname text bsl). split; [split|split; [apply source_kept with (t2 := text); auto|]].
  - destruct (Eo rest) as (k & K1 & K2). exists [VList l1], (VList l1 :: rest), k. split; [|split; [|split]].
    + intros h. change (is_str (VStr t1) t0) with false. cbn [put_all fold_left fst snd]. unfold managed_out. rewrite (brace_read_bytes _ _ _ _ _ Hb Hd). cbn [bind vlist]. rewrite D. reflexivity.
    + exact R1.
    + exact K1.
    + exact K2.
  - split; [exact Sv|]. split; [exact J|]. split; [constructor; [apply scal_list; exact S2|exact R2]|]. split; [constructor; [split; [left; reflexivity|apply scal_str; exact mark_sc]|constructor]|]. constructor; [intros []|constructor].
  - intros h own He Ho. apply one_source; [unfold enc_of; rewrite He; reflexivity|exact B1|exact Ho].
  - intros srcs h2 out files t' c l4 bs' (M1 & M2) Hsr R O0 O1 G4 Hb4. unfold rest_of_build. cbn [dget] in M1. change (is_str (VStr t1) t0) with false. cbv iota.
    rewrite (@source_code_back fname srcs h2 (VStr code_mark) t' Hsr M1 eq_refl) by (unfold enc_of; rewrite M2; reflexivity). cbn [bind]. unfold code_back. cbn [dget]. rewrite str_eqb_refl. cbn [bind vlist].
    destruct (Ei t') as (l3 & l4' & (c' & En & G') & Pe). rewrite G4 in G'. injection G' as <- <-. rewrite En. cbn [bind]. rewrite (Pe rest srcs fname R). cbn [bind].
    unfold managed_back. rewrite (brace_write_bytes _ _ _ _ _ Hb4) by (left; exact O0). cbn [bind].
    assert (here uuid src [s_zero] = [dotted uuid s_zero]) as Eh by (unfold here; cbn [flat_map]; rewrite Hd; reflexivity).
    destruct (R3 [VList l4] (dset (dotted uuid s_zero) (TFile bs') out) files eq_refl) as (out2 & T1 & T2 & T3); [rewrite dget_dset_other by (intros E; symmetry in E; exact (zero_one _ E)); exact O1|].
    rewrite <- Eh. exists out2. split; [exact T1|]. split; [rewrite T3 by apply zero_one; apply dget_dset_same|]. split; [exact T2|].
    intros n N0 N1. rewrite T3 by exact N1. apply dget_dset_other. congruence.
Qed.
Lemma edit_ordinary fo bs l mbs : dget (dotted uuid s_zero) src = Some (TDir fo) -> dget s_form fo = Some (TFile bs) -> brace_bytes os l bs -> ordinary_is auto old_dec old_enc l ->
  dget s_module fo = Some (TFile mbs) -> module_is os mbs -> second_is os src uuid ->
  exists adds codes one vs form elems M, taken os repr left auto old_dec parent src uuid fname t0 adds codes one vs form elems M /\ (exists t t2 enc, source_text (dget (source_name fname m_obj s_bsl) M) t /\ hidden t t2 /\ encoding_of mbs enc /\ text_in os enc mbs t2) /\
    forall srcs h2 (out : folder) files t' t2 enc mbs', marks adds one h2 -> source_text (dget (source_name fname m_obj s_bsl) srcs) t' -> json_read srcs (dotted fname x_elem) = Ok elems ->
      dget (dotted uuid s_zero) out = None -> dget (dotted uuid s_one) out = None -> hidden t' t2 -> encoding_of mbs enc -> text_in os enc mbs' t2 ->
      exists out2, rest_of_build os repr auto old_enc parent uuid fname t0 form srcs h2 out files = Ok (out2, files ++ here uuid src [s_zero; s_one]) /\ rebuilt out out2 (TDir [(s_form, TFile bs); (s_module, TFile mbs')]).
Proof.
  intros Hd Hf Hb Ho Hmod (t & Ht & Hn & Hh) Hs. pose proof (brace_scal _ _ _ Hb) as Sl. apply scal_lsc in Sl.
  destruct (@ordinary_cycle left parent repr auto old_dec old_enc Hrepr _ Ho Sl) as (l2 & vs & elems & Sv & J & S2 & Eo & Ei).
  destruct (@second_cycle os src uuid [VList l] Hs ltac:(discriminate) eq_refl) as (rest & R1 & R2 & R3).
  destruct (@cycle_text os true mbs t Ht Hn (fun _ => Hh)) as (c & e & c2 & Cy). pose proof Cy as [Cr Cm].
  destruct Cm as [(_ & -> & _)|(Ee & tt & tt2 & bsl & -> & -> & B1 & B2 & B3 & B4)]; [exfalso; eapply text_not_bin; [exact Ht|exact Hmod|apply Cr; exact Hmod]|].
  assert (Enc : forall h, dget (k_enc m_obj) h = Some (VStr e) -> enc_encrypted (enc_of h m_obj) = None) by (intros h E; unfold enc_of; rewrite E; cbn [enc_encrypted]; rewrite Ee; reflexivity).
  exists [(k_enc m_obj, VStr e)], [(m_obj, CText tt)], true, vs, (VList l2 :: rest), elems, (FormObjBody.module_file fname tt bsl). split; [split|split].
  - destruct (Eo rest) as (k & K1 & K2). exists [VList l], (VList l :: rest), k. split; [|split; [|split]].
    + intros h. change (is_str (VStr t0) t0) with true. cbn [put_all fold_left fst snd]. unfold ordinary_out. rewrite Hd. rewrite (brace_read_bytes _ _ _ _ _ Hb Hf). cbn [bind]. rewrite (Cr _ _ Hmod). cbn [bind].
      unfold form_ext. cbn [decode_code dget]. rewrite str_eqb_refl. reflexivity.
    + exact R1.
    + exact K1.
    + exact K2.
  - split; [exact Sv|]. split; [exact J|]. split; [constructor; [apply scal_list; exact S2|exact R2]|]. split; [constructor; [split; [right; reflexivity|apply (proj1 (scal_str e)); exact (@raw_enc fo s_module true _ e (Cr _ _ Hmod))]|constructor]|].
    constructor; [intros []|constructor].
  - intros h own He Hown. cbn [dget] in He. rewrite str_eqb_refl in He. apply one_source; [exact (Enc h He)|exact B1|exact Hown].
  - exists tt2, (comment_directives tt2), e. split; [apply source_kept with (t2 := tt2); auto|]. split; [apply hidden_comment|]. split; [exact (read_encoding fo s_module Hmod Ht (Cr _ _ Hmod))|].
    apply store_text; [|exact B4]. apply scalar_comment. eapply load_scalar. exact B2.
  - intros srcs h2 out files t' t2 enc mbs' (M1 & M2) Hsr R O0 O1 Hid Hen Hti. cbn [dget] in M2. rewrite str_eqb_refl in M2. unfold rest_of_build. change (is_str (VStr t0) t0) with true. cbv iota.
    rewrite (@source_code_back fname srcs h2 (VStr [49]) t' Hsr M1 eq_refl (Enc h2 M2)). cbn [bind]. rewrite (Ei rest srcs fname R). cbn [bind].
    unfold ordinary_back. rewrite M1. cbn [vtruthy]. cbv iota. rewrite O0. cbn [bind vnth nth_error].
    rewrite (brace_write_bytes _ _ _ _ _ Hb) by (left; reflexivity). cbn [bind]. rewrite M2. cbn [bind vstr]. cbn [dget]. rewrite str_eqb_refl.
    pose proof (read_encoding fo s_module Hmod Ht (Cr _ _ Hmod)) as He2. assert (enc = e) as -> by (eapply encoding_once; eassumption).
    unfold write_raw_code. rewrite <- (hidden_is Hid). unfold txt_write. rewrite (text_in_store Hti). cbn [bind]. unfold put_file. change (dget s_module (dset s_form (TFile bs) ([] : folder))) with (@None tree). cbv iota. cbn [bind].
    assert (here uuid src [s_zero] = [dotted uuid s_zero]) as Eh by (unfold here; cbn [flat_map]; rewrite Hd; reflexivity).
    match goal with |- context [dset (dotted uuid s_zero) (TDir ?x) out] => set (sub := x) end.
    destruct (R3 [VList l] (dset (dotted uuid s_zero) (TDir sub) out) files eq_refl) as (out2 & T1 & T2 & T3); [rewrite dget_dset_other by (intros E; symmetry in E; exact (zero_one _ E)); exact O1|].
    rewrite <- Eh. exists out2. split; [exact T1|]. split; [rewrite T3 by apply zero_one; apply dget_dset_same|]. split; [exact T2|].
    intros n N0 N1. rewrite T3 by exact N1. apply dget_dset_other. congruence.
Qed.
End Body.

(** ** Whole forms *)
Section Whole.
Variable c : fclass.
Variable prefix : list N.
Variable src : folder.
Variables uuid name comment : list N.
Variable locs : list (list N * list N).
Variables data hdr : list val.
Variable options : option (list N).
Variable pid : list N.
Hypothesis Hval : valid uuid = true.
Hypothesis Hopt : prefix_ok prefix options pid hdr.
Definition built_as (srcs out : folder) (zero : tree) : Prop :=
  exists out', form_encode os repr auto old_enc c options pid parent srcs out = Ok (Some (out', mkbuilt uuid name (files_of_form src uuid) (VList data))) /\
    same_entry (dget uuid src) (dget uuid out') /\ dget (dotted uuid s_zero) out' = Some zero /\ same_entry (dget (dotted uuid s_one) src) (dget (dotted uuid s_one) out') /\
    (forall n, n <> uuid -> n <> dotted uuid s_zero -> n <> dotted uuid s_one -> dget n out' = dget n out).
Lemma built_rest type form srcs h (out : folder) bs zero : dget uuid src = Some (TFile bs) ->
  form_encode os repr auto old_enc c options pid parent srcs out =
        (' (o, fs) <- rest_of_build os repr auto old_enc parent uuid (f_name c) type form srcs h (dset uuid (TFile bs) out) [uuid] ;; Ok (Some (o, mkbuilt uuid name fs (VList data)))) ->
  (exists out2, rest_of_build os repr auto old_enc parent uuid (f_name c) type form srcs h (dset uuid (TFile bs) out) [uuid] = Ok (out2, [uuid] ++ here uuid src [s_zero; s_one]) /\ rebuilt src uuid (dset uuid (TFile bs) out) out2 zero) ->
  built_as srcs out zero.
Proof.
  intros Hu He (out2 & Hr & R1 & R2 & R3). rewrite Hr in He. cbn [bind] in He. exists out2. split; [exact He|]. split; [|split; [exact R1|split; [exact R2|]]].
  - rewrite R3 by (intros E; apply dotted_self in E; exact E). rewrite dget_dset_same, Hu. reflexivity.
  - intros n N1 N2 N3. rewrite R3 by assumption. apply dget_dset_other. congruence.
Qed.
Lemma not_source s : s = s_json \/ s = s_idjson \/ s = x_elem -> dotted (f_name c) s <> module_source c.
Proof.
  intros Hs E. unfold module_source, source_name, dotted in E. rewrite <- ?app_assoc in E. apply app_inv_head in E. injection E as E. destruct Hs as [-> |[-> | ->]]; discriminate.
Qed.
Theorem managed_edited bs l text : form_header os src c uuid (prefix ++ name) locs comment data hdr (u "1"%string) ->
  dget (dotted uuid s_zero) src = Some (TFile bs) -> brace_bytes os l bs -> managed_is left parent l text -> second_is os src uuid ->
  exists own, form_decode os valid repr left auto old_dec c prefix parent src uuid = Ok (uuid, name, own) /\ source_text (dget (module_source c) own) text /\
    forall (srcs out : folder) t', same_but_module c own srcs -> source_text (dget (module_source c) srcs) t' ->
      dget uuid out = None -> dget (dotted uuid s_zero) out = None -> dget (dotted uuid s_one) out = None ->
      forall raw l4 bs', getset_form_code (literal t') l = Ok (raw, l4) -> brace_bytes os l4 bs' -> built_as srcs out (TFile bs').
Proof.
  intros Hh Hd Hb Hm Hs. destruct (@edit_managed src uuid (f_name c) bs l text Hd Hb Hm Hs) as (adds & codes & one & vs & form & elems & M & T & Hk & CB).
  destruct (@form_parts os valid repr left auto old_dec old_enc Hrepr c prefix parent src uuid name locs comment data hdr options pid _ adds codes one vs form elems M Hh Hval Hopt T) as (own & hbs & D & D1 & D2 & D3 & D4 & D5).
  exists own. split; [exact D|]. split.
  - rewrite D2 by (eexists; reflexivity). exact Hk.
  - intros srcs out t' Hsame Hst O O0 O1 raw l4 bs' G B4. destruct (D5 srcs out) as (h & Mk & E); [apply Hsame; [left; reflexivity|apply not_source; tauto]|apply Hsame; [right; left; reflexivity|apply not_source; tauto]|exact O|].
    eapply built_rest; [exact D4|exact E|]. eapply CB; [exact Mk|exact Hst|apply D3; apply Hsame; [right; right; left; reflexivity|apply not_source; tauto]| | |exact G|exact B4].
    + rewrite dget_dset_other; [exact O0|]. intros E1. symmetry in E1. apply dotted_self in E1. exact E1.
    + rewrite dget_dset_other; [exact O1|]. intros E1. symmetry in E1. apply dotted_self in E1. exact E1.
Qed.
Theorem ordinary_edited fo bs l mbs enc : form_header os src c uuid (prefix ++ name) locs comment data hdr (u "0"%string) ->
  dget (dotted uuid s_zero) src = Some (TDir fo) -> dget s_form fo = Some (TFile bs) -> brace_bytes os l bs -> ordinary_is auto old_dec old_enc l ->
  dget s_module fo = Some (TFile mbs) -> module_is os mbs -> second_is os src uuid -> encoding_of mbs enc ->
  exists own, form_decode os valid repr left auto old_dec c prefix parent src uuid = Ok (uuid, name, own) /\
    (exists t t2, source_text (dget (module_source c) own) t /\ hidden t t2 /\ text_in os enc mbs t2) /\
    forall (srcs out : folder) t', same_but_module c own srcs -> source_text (dget (module_source c) srcs) t' ->
      dget uuid out = None -> dget (dotted uuid s_zero) out = None -> dget (dotted uuid s_one) out = None ->
      forall t2 mbs', hidden t' t2 -> text_in os enc mbs' t2 -> built_as srcs out (TDir [(s_form, TFile bs); (s_module, TFile mbs')]).
Proof.
  intros Hh Hd Hf Hb Ho Hm Hmod Hs Henc. destruct (@edit_ordinary src uuid (f_name c) fo bs l mbs Hd Hf Hb Ho Hm Hmod Hs) as (adds & codes & one & vs & form & elems & M & T & (t & t2 & e & Hk & Hid & He & Hti) & CB).
  destruct (@form_parts os valid repr left auto old_dec old_enc Hrepr c prefix parent src uuid name locs comment data hdr options pid _ adds codes one vs form elems M Hh Hval Hopt T) as (own & hbs & D & D1 & D2 & D3 & D4 & D5).
  exists own. split; [exact D|]. split.
  - exists t, t2. rewrite D2 by (eexists; reflexivity). rewrite (encoding_once Henc He). auto.
  - intros srcs out t' Hsame Hst O O0 O1 t2' mbs' Hid' Hti'. destruct (D5 srcs out) as (h & Mk & E); [apply Hsame; [left; reflexivity|apply not_source; tauto]|apply Hsame; [right; left; reflexivity|apply not_source; tauto]|exact O|].
    eapply built_rest; [exact D4|exact E|]. eapply CB; [exact Mk|exact Hst|apply D3; apply Hsame; [right; right; left; reflexivity|apply not_source; tauto]| | |exact Hid'|exact Henc|exact Hti'].
    + rewrite dget_dset_other; [exact O0|]. intros E1. symmetry in E1. apply dotted_self in E1. exact E1.
    + rewrite dget_dset_other; [exact O1|]. intros E1. symmetry in E1. apply dotted_self in E1. exact E1.
Qed.
End Whole.
End Edit.
