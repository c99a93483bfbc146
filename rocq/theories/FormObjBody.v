(** The files of a form after its header file: read, kept in the sources, and written again. *)
From Coq Require Import String Lia.
From Verif Require Import PyBase PyInt PyText Utf Codecs Brace Spec_Brace Spec_Misc JsonText JsonTextProofs JsonObj Header Pipeline UpdateDict UpdateDictProofs Spec_Stage ObjCode Spec_Obj ObjCodeProofs ObjCodeMain Payload Spec_Payload PayloadProofs
  MetaObj Spec_MetaObj MetaObjBase MetaObjGood MetaObjList MetaObjMain FormCode Spec_Form FormElem FormJson FormJsonGood Form27 Form27Json Form Spec_FormObj FormObjElem.
Set Implicit Arguments.
Open Scope list_scope.
Open Scope N_scope.

Definition put_all (adds : list (list N * val)) (h : header) : header := fold_left (fun h (e : list N * val) => dset (fst e) (snd e) h) adds h.
(** ** The module in the sources *)
Lemma source_one os fname (t bsl : list N) (h : header) (own : folder) : enc_encrypted (enc_of h m_obj) = None -> text_store os e_utf8 t = Ok bsl ->
  dget (source_name fname m_obj s_bsl) own = None ->
  write_decode_code os h [(m_obj, CText t)] fname own = Ok (match t with [] => own | _ => dset (source_name fname m_obj s_bsl) (TFile bsl) own end).
Proof.
  intros He Hs Hn. destruct t as [|c t]; [reflexivity|]. cbn [write_decode_code has_code]. rewrite He. unfold txt_write, put_file. rewrite Hs, Hn. reflexivity.
Qed.
(** the module a build finds *)
Definition module_file (fname t bsl : list N) : folder := match t with [] => [] | _ => [(source_name fname m_obj s_bsl, TFile bsl)] end.
Lemma source_back fname (t t2 bsl : list N) (srcs : folder) h2 i : text_load e_utf8sig bsl = Ok t2 -> (t = [] -> t2 = []) -> dget (k_info m_obj) h2 = Some i -> vtruthy i = true -> enc_encrypted (enc_of h2 m_obj) = None ->
  dget (source_name fname m_obj s_bsl) srcs = dget (source_name fname m_obj s_bsl) (module_file fname t bsl) -> encode_code srcs fname form_ext h2 [] = Ok [(m_obj, CText t2)].
Proof.
  intros Hl Ht Hi Hv He2 Hd. unfold form_ext. cbn [encode_code]. unfold encode_one. rewrite Hi, Hv, He2. unfold txt_read. rewrite Hd. destruct t as [|c t].
  - rewrite Ht by reflexivity. reflexivity.
  - cbn [module_file dget]. rewrite str_eqb_refl, Hl. reflexivity.
Qed.
Lemma text_not_bin (fo : folder) name bs t dirs b e : module_text bs t -> dget name fo = Some (TFile bs) -> read_raw_code fo name dirs = Ok (CBin b, e) -> False.
Proof.
  intros Hm Hd H. unfold read_raw_code, txt_read, text_load in H. rewrite Hd in H. destruct Hm as [t Ht|t e0 He Ht].
  - rewrite dc_utf8, Ht in H. cbn [bind] in H. destruct (has_code _ && _ && _) in H; discriminate.
  - rewrite (err_unicode _ _ He) in He; rewrite dc_utf8, He in H. cbn [bind] in H. rewrite dc_cp, Ht in H. cbn [bind] in H. destruct (has_code _ && _ && _) in H; discriminate.
Qed.

Section Body.
Variable os : platform.
Variable repr : val -> list N.
Variable left : ekind -> val -> jval.
Variable auto : bool.
Variable old_dec : nat -> val -> res (val * jval).
Variable old_enc : nat -> jval -> val -> res val.
Variable parent : option (list N).
Variable src : folder.
Variable uuid : list N.
Variable fname : list N.
Hypothesis Hrepr : forall v, scal v -> sc (repr v).

Definition is_source (n : list N) : Prop := exists x, n = source_name fname m_obj x.
(** what stands in the header of the sources when a build reads it *)
Definition marks (adds : list (list N * val)) (one : bool) (h : header) : Prop :=
  dget (k_info m_obj) h = (if one then Some (VStr [49]) else dget (k_info m_obj) adds) /\ dget (k_enc m_obj) h = dget (k_enc m_obj) adds.
Record taken (ty : list N) (adds : list (list N * val)) (codes : list (list N * code)) (one : bool) (vs : list N) (form : list val) (elems : jval) (M : folder) : Prop := {
  tk_out : exists f1 f2 k, (forall h, (if is_str (VStr ty) t0 then ordinary_out os src uuid h else managed_out src uuid h) = Ok (put_all adds h, codes, f1, one)) /\
    second_out src uuid f1 = Ok f2 /\ decoder_of repr (VStr ty) f2 = Ok (vs, k) /\ take_elements left auto old_dec parent k f2 = Ok (form, elems);
  tk_good : sc vs /\ jgood elems /\ lsc form /\ Forall (fun e => (fst e = k_info m_obj \/ fst e = k_enc m_obj) /\ scal (snd e)) adds /\ NoDup (map fst adds);
  tk_code : forall h (own : folder), dget (k_enc m_obj) h = dget (k_enc m_obj) adds -> (forall n, is_source n -> dget n own = None) ->
      exists own', write_decode_code os h codes fname own = Ok own' /\ (forall n, ~ is_source n -> dget n own' = dget n own) /\ (forall n, is_source n -> dget n own' = dget n M)
}.
Lemma one_source t bsl h own : enc_encrypted (enc_of h m_obj) = None -> text_store os e_utf8 t = Ok bsl -> (forall n, is_source n -> dget n own = None) ->
  exists own', write_decode_code os h [(m_obj, CText t)] fname own = Ok own' /\ (forall n, ~ is_source n -> dget n own' = dget n own) /\ (forall n, is_source n -> dget n own' = dget n (module_file fname t bsl)).
Proof.
  intros He Hs Ho. eexists. split; [eapply source_one; [exact He|exact Hs|apply Ho; eexists; reflexivity]|]. destruct t as [|c t]; [split; [reflexivity|exact Ho]|]. split.
  - intros n Hn. apply dget_dset_other. intros ->. apply Hn. eexists. reflexivity.
  - intros n Hn. cbn [module_file dget]. destruct (str_eqb n (source_name fname m_obj s_bsl)) eqn:E.
    + apply str_eqb_spec in E. subst. apply dget_dset_same.
    + rewrite dget_dset_other; [apply Ho; exact Hn|]. intros ->. rewrite str_eqb_refl in E. discriminate.
Qed.
(** the rest of a build after the header *)
Definition rest_of_build (ty : list N) (form : list val) (srcs : folder) (h : header) (out : folder) (files : list (list N)) : res (folder * list (list N)) :=
  codes <- encode_code srcs fname form_ext h [] ;;
  form <- (if is_str (VStr ty) t0 then Ok form else code_back codes form) ;;
  form <- put_elements repr auto old_enc parent (VStr ty) srcs fname form ;;
  ' (out, files) <- (if is_str (VStr ty) t0 then ordinary_back os uuid h codes form out files else managed_back os uuid form out files) ;;
  second_back os uuid form out files.
(** the files of the form come back *)
Definition comes_back (ty : list N) (adds : list (list N * val)) (one : bool) (form : list val) (elems : jval) (M : folder) : Prop :=
  forall srcs h2 (out : folder) files, marks adds one h2 -> (forall n, is_source n -> dget n srcs = dget n M) -> json_read srcs (dotted fname x_elem) = Ok elems -> dget (dotted uuid s_zero) out = None -> dget (dotted uuid s_one) out = None ->
    exists out2, rest_of_build ty form srcs h2 out files = Ok (out2, files ++ here uuid src [s_zero; s_one]) /\
      same_entry (dget (dotted uuid s_zero) src) (dget (dotted uuid s_zero) out2) /\ same_entry (dget (dotted uuid s_one) src) (dget (dotted uuid s_one) out2) /\
      forall n, n <> dotted uuid s_zero -> n <> dotted uuid s_one -> dget n out2 = dget n out.

Lemma zero_one : dotted uuid s_zero <> dotted uuid s_one.
Proof. intros E. apply dotted_inj in E. discriminate. Qed.
(** the second file *)
Lemma second_cycle f : second_is os src uuid -> f <> [] -> length f = 1%nat -> exists rest, second_out src uuid f = Ok (f ++ rest) /\ lsc rest /\
  forall g (out : folder) files, length g = 1%nat -> dget (dotted uuid s_one) out = None -> exists out2, second_back os uuid (g ++ rest) out (files ++ here uuid src [s_zero]) = Ok (out2, files ++ here uuid src [s_zero; s_one]) /\
    same_entry (dget (dotted uuid s_one) src) (dget (dotted uuid s_one) out2) /\ forall n, n <> dotted uuid s_one -> dget n out2 = dget n out.
Proof.
  intros Hs Hf Hl. assert (H2 : here uuid src [s_zero; s_one] = here uuid src [s_zero] ++ here uuid src [s_one]) by (unfold here; cbn [flat_map]; rewrite !app_nil_r; reflexivity).
  destruct Hs as [H|(bs & l & H & Hb)]; change (u "1"%string) with s_one in H.
  - exists []. unfold second_out, brace_read. rewrite H, app_nil_r. split; [reflexivity|]. split; [constructor|]. intros g out files Hg Ho. exists out. rewrite app_nil_r. destruct g as [|x [|y g]]; try discriminate. cbn [second_back]. rewrite H2.
    assert (here uuid src [s_one] = []) as -> by (unfold here; cbn [flat_map]; rewrite H; reflexivity). rewrite app_nil_r. split; [reflexivity|]. rewrite ?H, Ho. split; [exact I|reflexivity].
  - exists [VList l]. unfold second_out. rewrite (brace_read_bytes _ _ _ _ _ Hb H). split; [reflexivity|]. split; [constructor; [eapply brace_scal; exact Hb|constructor]|].
    intros g out files Hg Ho. destruct g as [|x [|y g]]; try discriminate. cbn [second_back app]. rewrite (brace_write_bytes _ _ _ _ _ Hb) by (left; exact Ho). cbn [bind]. exists (dset (dotted uuid s_one) (TFile bs) out).
    rewrite H2, <- app_assoc. assert (here uuid src [s_one] = [dotted uuid s_one]) as -> by (unfold here; cbn [flat_map]; rewrite H; reflexivity). split; [reflexivity|]. rewrite dget_dset_same, H. split; [reflexivity|]. intros n Hn. apply dget_dset_other. congruence.
Qed.

Lemma body_managed bs l text : dget (dotted uuid s_zero) src = Some (TFile bs) -> brace_bytes os l bs -> managed_is left parent l text -> second_is os src uuid ->
  exists adds codes one vs form elems M, taken t1 adds codes one vs form elems M /\ comes_back t1 adds one form elems M.
Proof.
  intros Hd Hb Hm Hs. pose proof (brace_scal _ _ _ Hb) as Sl. apply scal_lsc in Sl.
  destruct (@managed_cycle left parent repr auto old_dec old_enc _ _ Hm Sl) as (l1 & l2 & l3 & (Tc & Tb) & St & D & (vs & elems & Sv & J & S2 & Eo & Ei) & En).
  destruct (second_cycle (f := [VList l1]) Hs ltac:(discriminate) eq_refl) as (rest & R1 & R2 & R3).
  destruct (source_cycle os text St) as (bsl & B1 & B2); [exact Tc|exact Tb|].
  exists [(k_info m_obj, VStr code_mark)], [(m_obj, CText text)], false, vs, (VList l2 :: rest), elems, (module_file fname text bsl). split; [split|].
  - destruct (Eo rest) as (k & K1 & K2). exists [VList l1], (VList l1 :: rest), k. split; [|split; [|split]].
    + intros h. change (is_str (VStr t1) t0) with false. cbn [put_all fold_left fst snd]. unfold managed_out. rewrite (brace_read_bytes _ _ _ _ _ Hb Hd). cbn [bind vlist]. rewrite D. reflexivity.
    + exact R1.
    + exact K1.
    + exact K2.
  - split; [exact Sv|]. split; [exact J|]. split; [constructor; [apply scal_list; exact S2|exact R2]|]. split; [constructor; [split; [left; reflexivity|apply scal_str; exact mark_sc]|constructor]|]. constructor; [intros []|constructor].
  - intros h own He Ho. apply one_source; [unfold enc_of; rewrite He; reflexivity|exact B1|exact Ho].
  - intros srcs h2 out files (M1 & M2) Hsr R O0 O1. unfold rest_of_build. cbn [dget] in M1. change (is_str (VStr t1) t0) with false. cbv iota.
    rewrite (@source_back fname text text bsl srcs h2 (VStr code_mark) B2 (fun e => e) M1 eq_refl); [|unfold enc_of; rewrite M2; reflexivity|apply Hsr; eexists; reflexivity]. cbn [bind]. unfold code_back. cbn [dget]. rewrite str_eqb_refl. cbn [bind vlist]. rewrite En. cbn [bind]. rewrite (Ei rest srcs fname R). cbn [bind].
    unfold managed_back. rewrite (brace_write_bytes _ _ _ _ _ Hb) by (left; exact O0). cbn [bind].
    assert (here uuid src [s_zero] = [dotted uuid s_zero]) as Eh by (unfold here; cbn [flat_map]; rewrite Hd; reflexivity).
    destruct (R3 [VList l] (dset (dotted uuid s_zero) (TFile bs) out) files eq_refl) as (out2 & T1 & T2 & T3); [rewrite dget_dset_other by (intros E; symmetry in E; exact (zero_one E)); exact O1|].
    rewrite <- Eh. exists out2. split; [exact T1|]. split; [rewrite T3 by exact zero_one; rewrite dget_dset_same, Hd; reflexivity|]. split; [exact T2|].
    intros n N0 N1. rewrite T3 by exact N1. apply dget_dset_other. congruence.
Qed.
Lemma body_ordinary fo bs l mbs : dget (dotted uuid s_zero) src = Some (TDir fo) -> dget s_form fo = Some (TFile bs) -> brace_bytes os l bs -> ordinary_is auto old_dec old_enc l ->
  dget s_module fo = Some (TFile mbs) -> module_is os mbs -> (forall n, n <> s_form -> n <> s_module -> dget n fo = None) -> second_is os src uuid ->
  exists adds codes one vs form elems M, taken t0 adds codes one vs form elems M /\ comes_back t0 adds one form elems M.
Proof.
  intros Hd Hf Hb Ho Hmod (t & Ht & Hn & Hh) Hfo Hs. pose proof (brace_scal _ _ _ Hb) as Sl. apply scal_lsc in Sl.
  destruct (@ordinary_cycle left parent repr auto old_dec old_enc Hrepr _ Ho Sl) as (l2 & vs & elems & Sv & J & S2 & Eo & Ei).
  destruct (second_cycle (f := [VList l]) Hs ltac:(discriminate) eq_refl) as (rest & R1 & R2 & R3).
  destruct (@cycle_text os true mbs t Ht Hn (fun _ => Hh)) as (c & e & c2 & Cy). pose proof Cy as [Cr Cm].
  destruct Cm as [(_ & -> & _)|(Ee & tt & tt2 & bsl & -> & -> & B1 & B2 & B3 & B4)]; [exfalso; eapply text_not_bin; [exact Ht|exact Hmod|apply Cr; exact Hmod]|].
  assert (Enc : forall h, dget (k_enc m_obj) h = Some (VStr e) -> enc_encrypted (enc_of h m_obj) = None) by (intros h E; unfold enc_of; rewrite E; cbn [enc_encrypted]; rewrite Ee; reflexivity).
  exists [(k_enc m_obj, VStr e)], [(m_obj, CText tt)], true, vs, (VList l2 :: rest), elems, (module_file fname tt bsl). split; [split|].
  - destruct (Eo rest) as (k & K1 & K2). exists [VList l], (VList l :: rest), k. split; [|split; [|split]].
    + intros h. change (is_str (VStr t0) t0) with true. cbn [put_all fold_left fst snd]. unfold ordinary_out. rewrite Hd. rewrite (brace_read_bytes _ _ _ _ _ Hb Hf). cbn [bind]. rewrite (Cr _ _ Hmod). cbn [bind].
      unfold form_ext. cbn [decode_code dget]. rewrite str_eqb_refl. reflexivity.
    + exact R1.
    + exact K1.
    + exact K2.
  - split; [exact Sv|]. split; [exact J|]. split; [constructor; [apply scal_list; exact S2|exact R2]|]. split; [constructor; [split; [right; reflexivity|apply (proj1 (scal_str e)); exact (@raw_enc fo s_module true _ e (Cr _ _ Hmod))]|constructor]|].
    constructor; [intros []|constructor].
  - intros h own He Hown. cbn [dget] in He. rewrite str_eqb_refl in He. apply one_source; [exact (Enc h He)|exact B1|exact Hown].
  - intros srcs h2 out files (M1 & M2) Hsr R O0 O1. cbn [dget] in M2. rewrite str_eqb_refl in M2. unfold rest_of_build. change (is_str (VStr t0) t0) with true. cbv iota.
    rewrite (@source_back fname tt tt2 bsl srcs h2 (VStr [49]) B2 B3 M1 eq_refl (Enc h2 M2)) by (apply Hsr; eexists; reflexivity). cbn [bind]. rewrite (Ei rest srcs fname R). cbn [bind].
    unfold ordinary_back. rewrite M1. cbn [vtruthy]. cbv iota. rewrite O0. cbn [bind vnth nth_error].
    rewrite (brace_write_bytes _ _ _ _ _ Hb) by (left; reflexivity). cbn [bind]. rewrite M2. cbn [bind vstr]. cbn [dget]. rewrite str_eqb_refl.
    assert (Nm : dget s_module (dset s_form (TFile bs) ([] : folder)) = None) by reflexivity. pose proof (@cycle_write _ _ _ _ _ _ Cy _ _ Nm) as W. rewrite Ee in W. rewrite W. cbn [bind].
    assert (here uuid src [s_zero] = [dotted uuid s_zero]) as Eh by (unfold here; cbn [flat_map]; rewrite Hd; reflexivity).
    match goal with |- context [dset (dotted uuid s_zero) (TDir ?x) out] => set (sub := x) end.
    destruct (R3 [VList l] (dset (dotted uuid s_zero) (TDir sub) out) files eq_refl) as (out2 & T1 & T2 & T3); [rewrite dget_dset_other by (intros E; symmetry in E; exact (zero_one E)); exact O1|].
    rewrite <- Eh. exists out2. split; [exact T1|]. split; [|split; [exact T2|]].
    + rewrite T3 by exact zero_one. rewrite dget_dset_same, Hd. cbn [same_entry]. intros n. unfold sub. destruct (str_eq_dec n s_module) as [-> |E1]; [rewrite dget_dset_same; exact Hmod|]. rewrite dget_dset_other by congruence.
      destruct (str_eq_dec n s_form) as [-> |E2]; [rewrite dget_dset_same; exact Hf|]. rewrite dget_dset_other by congruence. apply Hfo; assumption.
    + intros n N0 N1. rewrite T3 by exact N1. apply dget_dset_other. congruence.
Qed.
Lemma no_code srcs h2 : dget (k_info m_obj) h2 = None -> encode_code srcs fname form_ext h2 [] = Ok [].
Proof. intros H. unfold form_ext. cbn [encode_code]. unfold encode_one. rewrite H. reflexivity. Qed.
Lemma body_none : dget (dotted uuid s_zero) src = None -> dget (dotted uuid s_one) src = None -> taken t0 [] [] false [] [] no_elements [] /\ comes_back t0 [] false [] no_elements [].
Proof.
  intros H0 H1. assert (Hh : here uuid src [s_zero; s_one] = []) by (unfold here; cbn [flat_map]; rewrite H0, H1; reflexivity). split; [split|].
  - exists [], [], None. split; [|split; [|split; reflexivity]].
    + intros h. change (is_str (VStr t0) t0) with true. cbv iota. unfold ordinary_out. rewrite H0. cbn [bind]. unfold form_ext. cbn [decode_code dget]. unfold decode_one. rewrite H0. reflexivity.
    + unfold second_out, brace_read. rewrite H1. reflexivity.
  - split; [constructor|]. split; [exact no_elements_good|]. split; [constructor|]. split; [constructor|]. constructor.
  - intros h own _ Ho. exists own. split; [reflexivity|]. split; [reflexivity|]. exact Ho.
  - intros srcs h2 out files (M1 & _) _ _ O0 O1. cbn [dget] in M1. unfold rest_of_build. rewrite no_code by exact M1. exists out. rewrite Hh, !app_nil_r. change (is_str (VStr t0) t0) with true. cbv iota. cbn [bind put_elements decoder_of]. unfold ordinary_back. rewrite M1. cbn [bind second_back].
    split; [reflexivity|]. rewrite H0, H1, O0, O1. split; [exact I|]. split; [exact I|reflexivity].
Qed.
Lemma form_body type : form_files left parent auto old_dec old_enc os src uuid type -> exists adds codes one vs form elems M, taken type adds codes one vs form elems M /\ comes_back type adds one form elems M.
Proof.
  intros H. destruct H as [bs l text H1 H2 H3 H4|fo bs l mbs H1 H2 H3 H4 H5 H6 H7 H8|H1 H2].
  - exact (body_managed H1 H2 H3 H4).
  - exact (body_ordinary H1 H2 H3 H4 H5 H6 H7 H8).
  - pose proof (body_none H1 H2). exists [], [], false, [], [], no_elements, []. assumption.
Qed.
End Body.
