(** Each part of an object is restored (MetaObj.v). *)
From Coq Require Import String.
From Verif Require Import PyBase PyText Utf Cp1251 Codecs Brace Spec_Brace BraceMore JsonText JsonTextProofs JsonObj Header Pipeline Spec_Stage ObjCode Spec_Obj ObjCodeMain Payload
  Spec_Payload PayloadProofs PayloadTmpl PayloadPic MetaObj Spec_MetaObj MetaObjBase.
Open Scope list_scope.
Open Scope N_scope.

Lemma here_one uuid (src : folder) n : here uuid src [n] = match dget (dotted uuid n) src with Some _ => [dotted uuid n] | None => [] end.
Proof. unfold here. cbn [flat_map]. apply app_nil_r. Qed.
Lemma tmpl_lookup ty v n : In (ty, v, n) tmpl_table -> tmpl_by_value v tmpl_table = Some (ty, n) /\ tmpl_by_name n tmpl_table = Some ty.
Proof. intros H. cbn [In tmpl_table] in H. repeat (destruct H as [H|H]; [injection H as <- <- <-; split; reflexivity|]). destruct H. Qed.

Section P.
Variables (os : platform) (alnum : N -> bool).
Definition back_ok (p : part) (src own' : folder) (uuid fname name comment : list N) (h' : header) : Prop :=
  forall (srcs out : folder) (h2 : header) files,
    (forall n, owns fname name p n -> dget n srcs = dget n own') -> (forall k, In k (part_keys p) -> dget k h2 = dget k h') ->
    dget s_name h2 = Some (VStr name) -> dget s_comment h2 = Some (VStr comment) -> dget (dotted uuid (part_num p)) out = None ->
    exists out' h3, part_back os alnum p srcs fname uuid out h2 files = Ok (out', h3, files ++ here uuid src [part_num p]) /\
      dget (dotted uuid (part_num p)) out' = dget (dotted uuid (part_num p)) src /\
      (forall n, n <> dotted uuid (part_num p) -> dget n out' = dget n out) /\ (forall k, ~ In k (part_keys p) -> dget k h3 = dget k h2).

Lemma bin_restored (src own : folder) sname dname : (dget sname src = None \/ exists bs, dget sname src = Some (TFile bs)) -> dget dname own = None ->
  exists own', bin_out src sname own dname = Ok own' /\ (forall n, n <> dname -> dget n own' = dget n own) /\
    forall (srcs out : folder) files, dget dname srcs = dget dname own' -> dget sname out = None ->
      exists out', bin_back srcs dname out sname files = Ok (out', files ++ match dget sname src with Some _ => [sname] | None => [] end) /\
        dget sname out' = dget sname src /\ forall n, n <> sname -> dget n out' = dget n out.
Proof.
  intros He Ho. unfold bin_out, bin_read. destruct He as [E|(bs & E)]; rewrite E.
  - exists own. split; [reflexivity|]. split; [reflexivity|]. intros srcs out files Hs Hd. exists out. unfold bin_back, bin_read. rewrite Hs, Ho, app_nil_r. auto.
  - rewrite put_file_ok by (left; exact Ho). eexists. split; [reflexivity|]. split; [intros n Hn; apply dget_dset_other; exact Hn|]. intros srcs out files Hs Hd.
    rewrite dget_dset_same in Hs. exists (dset sname (TFile bs) out). unfold bin_back, bin_read. rewrite Hs. rewrite put_file_ok by (left; exact Hd). cbn [bind].
    split; [reflexivity|]. split; [apply dget_dset_same|]. intros n Hn. apply dget_dset_other. exact Hn.
Qed.
Lemma copy_restored (src own : folder) sname dname : (dget sname src = None \/ exists bs, dget sname src = Some (TFile bs)) -> dget dname own = None ->
  exists own', copy_out src sname own dname = Ok own' /\ (forall n, n <> dname -> dget n own' = dget n own) /\
    forall (srcs out : folder) files, dget dname srcs = dget dname own' -> dget sname out = None ->
      exists out', copy_back srcs dname out sname files = Ok (out', files ++ match dget sname src with Some _ => [sname] | None => [] end) /\
        dget sname out' = dget sname src /\ forall n, n <> sname -> dget n out' = dget n out.
Proof.
  intros He Ho. unfold copy_out. destruct He as [E|(bs & E)]; rewrite E.
  - exists own. split; [reflexivity|]. split; [reflexivity|]. intros srcs out files Hs Hd. exists out. unfold copy_back. rewrite Hs, Ho, app_nil_r. auto.
  - rewrite copy_file_ok by (left; exact Ho). eexists. split; [reflexivity|]. split; [intros n Hn; apply dget_dset_other; exact Hn|]. intros srcs out files Hs Hd.
    rewrite dget_dset_same in Hs. exists (dset sname (TFile bs) out). unfold copy_back. rewrite Hs. rewrite copy_file_ok by (left; exact Hd). cbn [bind].
    split; [reflexivity|]. split; [apply dget_dset_same|]. intros n Hn. apply dget_dset_other. exact Hn.
Qed.

Lemma part_restored p (src own : folder) uuid fname (h : header) name comment tree tree' :
  entry_ok os alnum p tree comment (dget (dotted uuid (part_num p)) src) ->
  (forall n, owns fname name p n -> dget n own = None) -> dget (dotted fname s_json) own = None -> dget (dotted fname s_idjson) own = None ->
  (forall k, In k (part_keys p) -> dget k h = None) ->
  dget s_name h = Some (VStr name) -> dget s_comment h = Some (VStr comment) -> dget s_header h = Some tree' ->
  (forall at_, p = PTemplate at_ -> vat at_ tree' = vat at_ tree) ->
  exists own' h', part_out os alnum p src uuid own fname h = Ok (own', h') /\
    (forall n, ~ owns fname name p n -> dget n own' = dget n own) /\ (forall k, ~ In k (part_keys p) -> dget k h' = dget k h) /\
    back_ok p src own' uuid fname name comment h'.
Proof.
  intros He Ho Hj Hi Hk Hn Hc Ht Hat. destruct p as [n f|n dname| | | |at_| |n|n elem|n| |n]; cbn [part_num owns part_keys] in *.
  - (* help *)
    destruct He as (content & He). set (fn := match f with Some f => f | None => fname end) in *.
    destruct (help_restored os uuid n fn s_help s_html src own [] h [] _ _ eq_refl He ltac:(discriminate) (Hk _ (or_introl eq_refl)) (Ho _ (or_introl eq_refl)) (Ho _ (or_intror eq_refl)) eq_refl)
      as (own' & h' & D & D1 & D2 & D3 & _).
    exists own', h'. split; [exact D|]. split; [intros m Hm; apply D2; tauto|]. split; [intros k Hkk; apply D3; intros ->; apply Hkk; left; reflexivity|].
    intros srcs out h2 files Hs Hh2 _ _ Hout. cbn [part_num owns part_keys] in *. fold fn in Hs.
    destruct (help_restored os uuid n fn s_help s_html src own out h files _ _ eq_refl He ltac:(discriminate) (Hk _ (or_introl eq_refl)) (Ho _ (or_introl eq_refl)) (Ho _ (or_intror eq_refl)) Hout)
      as (own2 & h2' & D' & _ & _ & _ & B).
    rewrite D in D'. assert (own2 = own' /\ h2' = h') as [-> ->] by (split; congruence).
    destruct (B srcs h2 (Hs _ (or_introl eq_refl)) (Hs _ (or_intror eq_refl)) (Hh2 _ (or_introl eq_refl))) as (out' & h3 & F1 & F2 & F3 & F4).
    exists out', h3. rewrite here_one. split; [|split; [exact F2|split; [exact F3|intros k Hkk; apply F4; intros ->; apply Hkk; left; reflexivity]]].
    cbn [part_back]. fold fn. rewrite F1. reflexivity.
  - (* raw *)
    destruct (bin_restored src own (dotted uuid n) dname He (Ho _ eq_refl)) as (own' & D & D1 & B). exists own', h. cbn [part_out]. rewrite D. split; [reflexivity|].
    split; [intros m Hm; apply D1; exact Hm|]. split; [reflexivity|]. intros srcs out h2 files Hs _ _ _ Hout. cbn [part_num owns part_keys] in *.
    destruct (B srcs out files (Hs _ eq_refl) Hout) as (out' & F1 & F2 & F3). exists out', h2. cbn [part_back]. rewrite F1, here_one. auto.
  - (* package *)
    destruct (bin_restored src own (dotted uuid s_zero) (dotted fname s_bin) He (Ho _ eq_refl)) as (own' & D & D1 & B). exists own', h. cbn [part_out]. rewrite D. split; [reflexivity|].
    split; [intros m Hm; apply D1; exact Hm|]. split; [reflexivity|]. intros srcs out h2 files Hs _ _ _ Hout. cbn [part_num owns part_keys] in *.
    destruct (B srcs out files (Hs _ eq_refl) Hout) as (out' & F1 & F2 & F3). exists out', h2. cbn [part_back]. rewrite F1, here_one. auto.
  - (* info *)
    destruct (copy_restored src own (dotted uuid s_zero) (dotted fname x_c1brace) He (Ho _ eq_refl)) as (own' & D & D1 & B). exists own', h. cbn [part_out]. rewrite D. split; [reflexivity|].
    split; [intros m Hm; apply D1; exact Hm|]. split; [reflexivity|]. intros srcs out h2 files Hs _ _ _ Hout. cbn [part_num owns part_keys] in *.
    destruct (B srcs out files (Hs _ eq_refl) Hout) as (out' & F1 & F2 & F3). exists out', h2. cbn [part_back]. rewrite F1, here_one. auto.
  - (* picture *)
    destruct He as (Hx & content & He). pose proof (ext_not_idjson alnum comment) as Hx2. set (nm := dotted fname (extension_of alnum comment)) in *.
    assert (Onm : exists x, x <> s_json /\ x <> s_idjson /\ nm = dotted fname x) by (exists (extension_of alnum comment); auto).
    destruct (picture_restored os alnum uuid fname comment src own [] h [] _ _ eq_refl He (Hk _ (or_introl eq_refl)) (Ho _ Onm) eq_refl) as (own' & h' & D & D1 & D2 & D3 & _).
    exists own', h'. cbn [part_out]. unfold str_field, field. rewrite Hc. cbn [bind vstr]. split; [exact D|]. split; [intros m Hm; apply D2; intros ->; exact (Hm Onm)|].
    split; [intros k Hkk; apply D3; intros ->; apply Hkk; left; reflexivity|].
    intros srcs out h2 files Hs Hh2 Hn2 Hc2 Hout. cbn [part_num owns part_keys] in *.
    destruct (picture_restored os alnum uuid fname comment src own out h files _ _ eq_refl He (Hk _ (or_introl eq_refl)) (Ho _ Onm) Hout) as (own2 & h2' & D' & _ & _ & _ & B).
    rewrite D in D'. assert (own2 = own' /\ h2' = h') as [-> ->] by (split; congruence). fold nm in D1, B.
    destruct (B srcs h2) as (out' & h3 & F1 & F2 & F3 & F4); [rewrite Hs by exact Onm; exact D1|apply Hh2; left; reflexivity|].
    exists out', h3. rewrite here_one. split; [|split; [exact F2|split; [exact F3|intros k Hkk; apply F4; intros ->; apply Hkk; left; reflexivity]]].
    cbn [part_back]. unfold str_field, field. rewrite Hc2. cbn [bind vstr]. rewrite F1. reflexivity.
  - (* template *)
    destruct He as (v & ty & n & Hv & Hin & He & Hext). destruct (tmpl_lookup _ _ _ Hin) as [L1 L2].
    assert (Hall : forall x, dget (dotted fname x) own = None).
    { intros x. destruct (list_eq_dec N.eq_dec x s_json) as [->|X1]; [exact Hj|]. destruct (list_eq_dec N.eq_dec x s_idjson) as [->|X2]; [exact Hi|]. apply Ho. eauto. }
    assert (Hh : dget s_html (dset s_type (VStr n) h) = None) by (rewrite dget_dset_other by discriminate; apply Hk; right; left; reflexivity).
    destruct (template_restored os alnum ty uuid fname comment src own [] (dset s_type (VStr n) h) [] _ eq_refl He Hext Hall eq_refl Hh) as (own' & h' & D & D2 & D3 & _).
    exists own', h'. cbn [part_out]. unfold str_field, field. rewrite Ht. cbn [bind]. rewrite (Hat _ eq_refl), Hv. cbn [bind vstr]. rewrite L1, Hc. cbn [bind vstr].
    split; [exact D|]. split; [intros m Hm; apply D2; intros x X1 X2 ->; apply Hm; eauto|].
    split; [intros k Hkk; rewrite D3 by (intros ->; apply Hkk; right; left; reflexivity); apply dget_dset_other; intros ->; apply Hkk; left; reflexivity|].
    intros srcs out h2 files Hs Hh2 Hn2 Hc2 Hout. cbn [part_num owns part_keys] in *.
    destruct (template_restored os alnum ty uuid fname comment src own out (dset s_type (VStr n) h) files _ eq_refl He Hext Hall Hout Hh) as (own2 & h2' & D' & _ & _ & B).
    rewrite D in D'. assert (own2 = own' /\ h2' = h') as [-> ->] by (split; congruence).
    destruct (B srcs h2) as (out' & h3 & F1 & F2 & F3 & F4); [intros x X1 X2; apply Hs; eauto|apply Hh2; right; left; reflexivity|].
    exists out', h3. rewrite here_one. split; [|split; [exact F2|split; [exact F3|intros k Hkk; apply F4; intros ->; apply Hkk; right; left; reflexivity]]].
    cbn [part_back]. unfold str_field, field. rewrite (Hh2 s_type (or_introl eq_refl)), (D3 s_type) by discriminate. rewrite dget_dset_same. cbn [bind vstr]. rewrite L2, Hc2. cbn [bind vstr].
    rewrite F1. reflexivity.
  - (* tree *)
    cbn [part_out]. unfold str_field, field. rewrite Hn. cbn [bind vstr]. unfold tree_out. specialize (Ho _ eq_refl).
    destruct He as [E|(fo & E)]; rewrite E.
    + exists own, h. split; [reflexivity|]. split; [reflexivity|]. split; [reflexivity|]. intros srcs out h2 files Hs _ Hn2 _ Hout. cbn [part_num owns part_keys] in *.
      exists out, h2. cbn [part_back]. unfold str_field, field, tree_back. rewrite Hn2. cbn [bind vstr]. rewrite (Hs _ eq_refl), Ho, here_one, E, app_nil_r. cbn [bind]. auto.
    + rewrite Ho. cbn [keep bind]. eexists. exists h. split; [reflexivity|]. split; [intros m Hm; apply dget_dset_other; exact Hm|]. split; [reflexivity|].
      intros srcs out h2 files Hs _ Hn2 _ Hout. cbn [part_num owns part_keys] in *. specialize (Hs _ eq_refl). rewrite dget_dset_same in Hs.
      exists (dset (dotted uuid s_zero) (TDir fo) out), h2. cbn [part_back]. unfold str_field, field, tree_back. rewrite Hn2. cbn [bind vstr]. rewrite Hs. cbn [dget]. rewrite str_eqb_refl, Hout, here_one, E.
      cbn [bind]. split; [reflexivity|]. split; [apply dget_dset_same|]. split; [|reflexivity]. intros m Hm. apply dget_dset_other. exact Hm.
  - (* kept *)
    cbn [part_out]. destruct He as [E|(data & bs & E & Hb)].
    + assert (R : brace_read src (dotted uuid n) = Err FileNotFoundError) by (unfold brace_read; rewrite E; reflexivity). rewrite R.
      exists own. eexists. split; [reflexivity|]. split; [reflexivity|]. split; [intros k Hkk; apply dget_dset_other; intros ->; apply Hkk; left; reflexivity|].
      intros srcs out h2 files Hs Hh2 _ _ Hout. cbn [part_num owns part_keys] in *. specialize (Hh2 _ (or_introl eq_refl)). rewrite dget_dset_same in Hh2.
      exists out, h2. cbn [part_back]. unfold field. rewrite Hh2, here_one, E, app_nil_r. cbn [bind vtruthy]. auto.
    + rewrite (brace_read_bytes _ _ _ _ _ Hb E).
      exists own. eexists. split; [reflexivity|]. split; [reflexivity|]. split; [intros k Hkk; apply dget_dset_other; intros ->; apply Hkk; left; reflexivity|].
      intros srcs out h2 files Hs Hh2 _ _ Hout. cbn [part_num owns part_keys] in *. specialize (Hh2 _ (or_introl eq_refl)). rewrite dget_dset_same in Hh2.
      exists (dset (dotted uuid n) (TFile bs) out), h2. cbn [part_back]. unfold field. rewrite Hh2, here_one, E. cbn [bind]. destruct (bytes_nonnil _ _ _ Hb) as (_ & _ & V). rewrite V.
      rewrite (brace_write_bytes _ _ _ _ _ Hb) by (left; exact Hout). cbn [bind]. split; [reflexivity|]. split; [apply dget_dset_same|]. split; [|reflexivity]. intros m Hm. apply dget_dset_other. exact Hm.
  - (* splash picture *)
    destruct He as (content & He).
    destruct (image_restored os uuid n elem (p_image ++ elem) src own [] h [] _ _ eq_refl He (Hk _ (or_introl eq_refl)) (Ho _ eq_refl) eq_refl) as (own' & h' & D & D1 & D2 & D3 & _).
    exists own', h'. split; [exact D|]. split; [intros m Hm; apply D2; exact Hm|]. split; [intros k Hkk; apply D3; intros ->; apply Hkk; left; reflexivity|].
    intros srcs out h2 files Hs Hh2 _ _ Hout. cbn [part_num owns part_keys] in *.
    destruct (image_restored os uuid n elem (p_image ++ elem) src own out h files _ _ eq_refl He (Hk _ (or_introl eq_refl)) (Ho _ eq_refl) Hout) as (own2 & h2' & D' & _ & _ & _ & B).
    rewrite D in D'. assert (own2 = own' /\ h2' = h') as [-> ->] by (split; congruence).
    destruct (B srcs h2) as (out' & h3 & F1 & F2 & F3 & F4); [rewrite (Hs _ eq_refl); exact D1|apply Hh2; left; reflexivity|].
    exists out', h3. rewrite here_one. split; [|split; [exact F2|split; [exact F3|intros k Hkk; apply F4; intros ->; apply Hkk; left; reflexivity]]].
    cbn [part_back]. rewrite F1. reflexivity.
  - (* json *)
    cbn [part_out]. specialize (Ho _ eq_refl). destruct He as [E|(data & bs & E & Hb)].
    + assert (R : brace_read src (dotted uuid n) = Err FileNotFoundError) by (unfold brace_read; rewrite E; reflexivity). rewrite R.
      exists own, h. split; [reflexivity|]. split; [reflexivity|]. split; [reflexivity|].
      intros srcs out h2 files Hs _ _ _ Hout. cbn [part_num owns part_keys] in *. exists out, h2. cbn [part_back]. unfold json_read. change x_json with s_json. rewrite (Hs _ eq_refl), Ho.
      rewrite here_one, E, app_nil_r. auto.
    + rewrite (brace_read_bytes _ _ _ _ _ Hb E). destruct (json_files os (jv (VList data)) (jgood_jv _ (brace_scal _ _ _ Hb))) as (jb & W & R). change x_json with s_json.
      rewrite W by (left; exact Ho). cbn [bind]. eexists. exists h. split; [reflexivity|]. split; [intros m Hm; apply dget_dset_other; exact Hm|]. split; [reflexivity|].
      intros srcs out h2 files Hs _ _ _ Hout. cbn [part_num owns part_keys] in *. specialize (Hs _ eq_refl). rewrite dget_dset_same in Hs.
      exists (dset (dotted uuid n) (TFile bs) out), h2. cbn [part_back]. change x_json with s_json. rewrite (R _ _ Hs), val_of_jv.
      rewrite (brace_write_bytes _ _ _ _ _ Hb) by (left; exact Hout). cbn [bind]. rewrite here_one, E. split; [reflexivity|]. split; [apply dget_dset_same|]. split; [|reflexivity]. intros m Hm. apply dget_dset_other. exact Hm.
  - (* form1 *)
    cbn [part_out]. destruct He as [E|(data & bs & E & Hb)].
    + assert (R : brace_read src (dotted uuid s_one) = Err FileNotFoundError) by (unfold brace_read; rewrite E; reflexivity). rewrite R.
      exists own. eexists. split; [reflexivity|]. split; [reflexivity|]. split; [intros k Hkk; apply dget_dset_other; intros ->; apply Hkk; left; reflexivity|].
      intros srcs out h2 files Hs Hh2 _ _ Hout. cbn [part_num owns part_keys] in *. specialize (Hh2 _ (or_introl eq_refl)). rewrite dget_dset_same in Hh2.
      exists out, h2. cbn [part_back]. rewrite Hh2, here_one, E, app_nil_r. cbn [vtruthy]. auto.
    + rewrite (brace_read_bytes _ _ _ _ _ Hb E).
      exists own. eexists. split; [reflexivity|]. split; [reflexivity|]. split; [intros k Hkk; apply dget_dset_other; intros ->; apply Hkk; left; reflexivity|].
      intros srcs out h2 files Hs Hh2 _ _ Hout. cbn [part_num owns part_keys] in *. specialize (Hh2 _ (or_introl eq_refl)). rewrite dget_dset_same in Hh2.
      exists (dset (dotted uuid s_one) (TFile bs) out), h2. cbn [part_back]. rewrite Hh2, here_one, E. destruct (bytes_nonnil _ _ _ Hb) as (_ & _ & V). rewrite V.
      rewrite (brace_write_bytes _ _ _ _ _ Hb) by (left; exact Hout). cbn [bind]. split; [reflexivity|]. split; [apply dget_dset_same|]. split; [|reflexivity]. intros m Hm. apply dget_dset_other. exact Hm.
  - (* stored *)
    cbn [part_out]. destruct He as [E|(data & bs & E & Hb)]; rewrite E.
    + exists own, h. split; [reflexivity|]. split; [reflexivity|]. split; [reflexivity|].
      intros srcs out h2 files Hs Hh2 _ _ Hout. cbn [part_num owns part_keys] in *. specialize (Hh2 _ (or_introl eq_refl)).
      exists out, h2. cbn [part_back]. rewrite Hh2, (Hk _ (or_introl eq_refl)), here_one, E, app_nil_r. auto.
    + rewrite (brace_read_bytes _ _ _ _ _ Hb E). cbn [bind].
      exists own. eexists. split; [reflexivity|]. split; [reflexivity|]. split; [intros k Hkk; apply dget_dset_other; intros ->; apply Hkk; left; reflexivity|].
      intros srcs out h2 files Hs Hh2 _ _ Hout. cbn [part_num owns part_keys] in *. specialize (Hh2 _ (or_introl eq_refl)). rewrite dget_dset_same in Hh2.
      exists (dset (dotted uuid n) (TFile bs) out), h2. cbn [part_back]. rewrite Hh2, here_one, E.
      rewrite (brace_write_bytes _ _ _ _ _ Hb) by (left; exact Hout). cbn [bind]. split; [reflexivity|]. split; [apply dget_dset_same|]. split; [|reflexivity]. intros m Hm. apply dget_dset_other. exact Hm.
Qed.
End P.
