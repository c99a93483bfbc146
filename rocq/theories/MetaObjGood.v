(** The header dictionary of an object being decoded holds only characters that a JSON file can hold. *)
From Coq Require Import String.
From Verif Require Import PyBase PyText Utf Cp1251 Codecs Brace Spec_Brace BraceMore JsonText JsonTextProofs JsonObj Header Pipeline Spec_Stage ObjCode Spec_Obj ObjCodeMain Payload
  Spec_Payload PayloadProofs PayloadTmpl PayloadPic MetaObj Spec_MetaObj MetaObjBase MetaObjPart.
Open Scope list_scope.
Open Scope N_scope.

(** scalar from a computation *)
Lemma scalars_by s : forallb scalarb s = true -> Forall scalar s.
Proof.
  intros H. rewrite forallb_forall in H. apply Forall_forall. intros c Hc. apply H in Hc. unfold scalarb in Hc. apply andb_true_iff in Hc. destruct Hc as [A B].
  apply N.ltb_lt in A. apply negb_true_iff in B. split; [lia|exact B].
Qed.
Ltac scalars := apply scalars_by; vm_compute; reflexivity.

Ltac bdestr H := match type of H with bind ?r _ = Ok _ => let E := fresh "E" in destruct r eqn:E; [cbn [bind] in H|discriminate H] end.
Lemma extract_scal raw b raw' : scal raw -> extract_b64 raw = Ok (b, raw') -> scal raw'.
Proof.
  intros Hs H. unfold extract_b64 in H. bdestr H. destruct a as [|s|l]; try discriminate. cbv zeta in H.
  repeat match type of H with (if ?c then _ else _) = _ => destruct c end; try discriminate; bdestr H; bdestr H; injection H as _ <-; (eapply scal_vset; [exact Hs| |eassumption]); apply (proj1 (scal_str _)); scalars.
Qed.
Lemma split_scal data b data' : scal data -> html_split data = Ok (b, data') -> scal data'.
Proof.
  intros Hs H. unfold html_split in H.
  match type of H with match ?r with _ => _ end = _ => destruct r as [[b1 d1]|x] eqn:R end.
  - injection H as <- <-. bdestr R. bdestr R. destruct a0; [|injection R as _ <-; exact Hs]. bdestr R. bdestr R. destruct a1 as [b2 o2]. cbn [bind] in R. bdestr R. bdestr R. injection R as _ <-.
    assert (S1 : scal a) by (eapply scal_vget; eassumption). assert (S2 : scal a0) by (eapply scal_vget; eassumption). assert (S3 : scal o2) by (eapply extract_scal; eassumption).
    eapply scal_vset; [exact Hs| |eassumption]. eapply scal_vset; [exact S1|exact S3|eassumption].
  - destruct x; try discriminate. injection H as _ <-. exact Hs.
Qed.
Lemma picsplit_scal data b data' : scal data -> picture_split data = Ok (b, data') -> scal data'.
Proof.
  intros Hs R. unfold picture_split in R. bdestr R. bdestr R. destruct a0; [|injection R as _ <-; exact Hs]. bdestr R. bdestr R. bdestr R. destruct a2 as [b2 o2]. cbn [bind] in R.
  bdestr R. bdestr R. bdestr R. injection R as _ <-.
  assert (S1 : scal a) by (eapply scal_vget; eassumption). assert (S2 : scal a0) by (eapply scal_vget; eassumption). assert (S3 : scal a1) by (eapply scal_vget; eassumption).
  assert (S4 : scal o2) by (eapply extract_scal; eassumption).
  eapply scal_vset; [exact Hs| |eassumption]. eapply scal_vset; [exact S1| |eassumption]. eapply scal_vset; [exact S2|exact S4|eassumption].
Qed.
Lemma html_good os (src dest dest' : folder) uuid n fname field ext (h h' : header) content : help_entry os (dget (dotted uuid n) src) content ->
  html_decode src uuid n dest fname field ext h = Ok (dest', h') -> hgood h -> Forall scalar field -> hgood h'.
Proof.
  intros He H Hg Hf. unfold html_decode in H. remember (dget (dotted uuid n) src) as e eqn:Ee. symmetry in Ee.
  assert (Rd : forall data bs, brace_bytes os data bs -> e = Some (TFile bs) -> (N.of_nat (length bs) <= 1000000)%N -> hgood h').
  { intros data bs Hb -> Hl. assert (L : max_html <? N.of_nat (length bs) = false) by (unfold max_html; apply N.ltb_ge; exact Hl). rewrite L in H.
    rewrite (brace_read_bytes _ _ _ _ _ Hb Ee) in H. cbn [bind] in H. bdestr H. destruct a as [b d1]. cbn [bind] in H. bdestr H. injection H as _ <-. apply hgood_dset; [exact Hg|exact Hf|].
    eapply split_scal; [|exact E]. eapply brace_scal, Hb. }
  destruct He as [|bs Hb|data bs mark content Hb Hl Hm Hc s Hs|data bs Hb Hl Hs].
  - injection H as _ <-. exact Hg.
  - assert (L : max_html <? N.of_nat (length bs) = true) by (unfold max_html; apply N.ltb_lt; exact Hb). rewrite L in H. bdestr H. injection H as _ <-. exact Hg.
  - eapply Rd; [exact Hb|reflexivity|exact Hl].
  - eapply Rd; [exact Hb|reflexivity|exact Hl].
Qed.
Lemma keep_good {A} (h h' : header) (r : res A) d : keep h r = Ok (d, h') -> h' = h.
Proof. unfold keep. intros H. bdestr H. injection H as _ <-. reflexivity. Qed.

Lemma part_good os alnum p (src own own' : folder) uuid fname (h h' : header) comment tree tree' :
  entry_ok os alnum p tree comment (dget (dotted uuid (part_num p)) src) ->
  dget s_header h = Some tree' -> (forall at_, p = PTemplate at_ -> vat at_ tree' = vat at_ tree) ->
  part_out os alnum p src uuid own fname h = Ok (own', h') -> hgood h -> Forall (Forall scalar) (part_keys p) -> hgood h'.
Proof.
  intros He Ht Hat H Hg Hk. destruct p as [n f|n dname| | | |at_| |n|n elem|n| |n]; cbn [part_num part_keys part_out] in *.
  - destruct He as (content & He). inversion Hk as [|? ? K _]; subst. eapply html_good; eassumption.
  - apply keep_good in H. subst. exact Hg.
  - apply keep_good in H. subst. exact Hg.
  - apply keep_good in H. subst. exact Hg.
  - destruct He as (_ & content & He). inversion Hk as [|? ? K _]; subst. bdestr H. unfold picture_out, wrap in H.
    match type of H with match ?r with _ => _ end = _ => destruct r as [[d1 h1]|x] eqn:R; [|discriminate] end. injection H as <- <-.
    inversion He as [E0|data bs mark content0 Hb Hm Hc s Hs E0]; subst.
    + assert (R0 : brace_read src (dotted uuid s_zero) = Err FileNotFoundError) by (unfold brace_read; rewrite <- E0; reflexivity). rewrite R0 in R. injection R as _ <-. exact Hg.
    + symmetry in E0. rewrite (brace_read_bytes _ _ _ _ _ Hb E0) in R. bdestr R. destruct a0 as [b d2]. cbn [bind] in R. bdestr R. injection R as _ <-. apply hgood_dset; [exact Hg|exact K|].
      eapply picsplit_scal; [|eassumption]. eapply brace_scal, Hb.
  - destruct He as (v & ty & n & Hv & Hin & He & Hext). destruct (tmpl_lookup _ _ _ Hin) as [L1 _]. unfold field in H. rewrite Ht in H. cbn [bind] in H. rewrite (Hat _ eq_refl), Hv in H. cbn [bind vstr] in H.
    rewrite L1 in H. bdestr H. inversion Hk as [|? ? K1 K2']; subst. inversion K2' as [|? ? K2 _]; subst.
    assert (Hg1 : hgood (dset s_type (VStr n) h)).
    { apply hgood_dset; [exact Hg|exact K1|]. apply (proj1 (scal_str _)). clear - Hin. cbn [In tmpl_table] in Hin. repeat (destruct Hin as [H|Hin]; [injection H as _ _ <-; scalars|]). destruct Hin. }
    destruct ty; unfold tmpl_out in H; cbv zeta in H; cbn [kind_of] in He; try (bdestr H; injection H as _ <-; exact Hg1). destruct He as (content & He). eapply html_good; eassumption.
  - bdestr H. apply keep_good in H. subst. exact Hg.
  - inversion Hk as [|? ? K _]; subst. destruct He as [E|(data & bs & E & Hb)].
    + assert (R : brace_read src (dotted uuid n) = Err FileNotFoundError) by (unfold brace_read; rewrite E; reflexivity). rewrite R in H. injection H as _ <-. apply hgood_dset; [exact Hg|exact K|constructor].
    + rewrite (brace_read_bytes _ _ _ _ _ Hb E) in H. injection H as _ <-. apply hgood_dset; [exact Hg|exact K|]. eapply brace_scal, Hb.
  - inversion Hk as [|? ? K _]; subst. destruct He as (content & He).
    assert (G : (dget (dotted uuid n) src = None) \/ exists data bs, dget (dotted uuid n) src = Some (TFile bs) /\ brace_bytes os data bs).
    { destruct He as [He|(_ & data & bs & E & Hb & _)]; [|right; eauto]. inversion He as [E0|data bs mark content0 Hb Hm Hc s Hs E0]; subst; [left; reflexivity|right; eauto]. }
    unfold image_out in H. destruct G as [E|(data & bs & E & Hb)].
    + assert (R : brace_read src (dotted uuid n) = Err FileNotFoundError) by (unfold brace_read; rewrite E; reflexivity). rewrite R in H. injection H as _ <-. exact Hg.
    + rewrite (brace_read_bytes _ _ _ _ _ Hb E) in H. bdestr H. destruct a as [b d2]. cbn [bind] in H. bdestr H. injection H as _ <-. apply hgood_dset; [exact Hg|exact K|].
      destruct (picture_split (VList data)) as [[b3 d3]|x] eqn:PS.
      * injection E0 as <- <-. eapply picsplit_scal; [|eassumption]. eapply brace_scal, Hb.
      * destruct x; try discriminate. injection E0 as _ <-. eapply brace_scal, Hb.
  - destruct He as [E|(data & bs & E & Hb)].
    + assert (R : brace_read src (dotted uuid n) = Err FileNotFoundError) by (unfold brace_read; rewrite E; reflexivity). rewrite R in H. injection H as _ <-. exact Hg.
    + rewrite (brace_read_bytes _ _ _ _ _ Hb E) in H. bdestr H. injection H as _ <-. exact Hg.
  - inversion Hk as [|? ? K _]; subst. destruct He as [E|(data & bs & E & Hb)].
    + assert (R : brace_read src (dotted uuid s_one) = Err FileNotFoundError) by (unfold brace_read; rewrite E; reflexivity). rewrite R in H. injection H as _ <-. apply hgood_dset; [exact Hg|exact K|constructor].
    + rewrite (brace_read_bytes _ _ _ _ _ Hb E) in H. injection H as _ <-. apply hgood_dset; [exact Hg|exact K|]. eapply brace_scal, Hb.
  - inversion Hk as [|? ? K _]; subst. destruct He as [E|(data & bs & E & Hb)]; rewrite E in H.
    + injection H as _ <-. exact Hg.
    + rewrite (brace_read_bytes _ _ _ _ _ Hb E) in H. cbn [bind] in H. injection H as _ <-. apply hgood_dset; [exact Hg|exact K|]. eapply brace_scal, Hb.
Qed.

(** modules *)
Lemma raw_enc (fo : folder) name unc c e : read_raw_code fo name unc = Ok (c, e) -> Forall scalar e.
Proof.
  intros H. unfold read_raw_code in H. bdestr H. destruct a as [c1 e1]. cbn [bind] in H. injection H as _ <-.
  assert (D : forall bs, Forall scalar (detect_by_bom bs)).
  { intros bs. unfold detect_by_bom. cbv zeta. repeat match goal with |- context [if ?b then _ else _] => destruct b end; scalars. }
  destruct (txt_read fo name e_utf8) as [t|x].
  - destruct (dget name fo) as [[]|]; try discriminate. injection E as _ <-. apply D.
  - destruct x; try discriminate; [|injection E as _ <-; scalars]. destruct (txt_read fo name e_cp1251) as [t|x]; [injection E as _ <-; scalars|]. destruct x; try discriminate. bdestr E. injection E as _ <-. scalars.
Qed.
Lemma enc_types t b (fo : folder) : find_encrypted encrypted_types fo = Some (t, b) -> Forall scalar t.
Proof.
  unfold encrypted_types. cbn [find_encrypted]. repeat match goal with |- match ?d with _ => _ end = _ -> _ => destruct d as [[]|] end; intros H; try discriminate; injection H as <- _; scalars.
Qed.
Lemma code_good os uuid (src : folder) unc : forall ext (h h' : header) codes codes', (forall m n, In (m, n) ext -> module_entry os unc (dget (dotted uuid n) src)) ->
  decode_code uuid src ext unc h codes = Ok (h', codes') -> hgood h -> Forall (Forall scalar) (map fst ext) -> hgood h'.
Proof.
  induction ext as [|[m n] ext IH]; intros h h' codes codes' Hm H Hg Hs; [injection H as <- _; exact Hg|]. cbn [decode_code] in H. inversion Hs as [|? ? Sm Hs2]; subst.
  bdestr H. destruct a as [h1 c1]. cbn [bind] in H. eapply IH; [intros m2 n2 Hi; apply (Hm m2 n2); right; exact Hi|exact H| |exact Hs2].
  destruct (dget m codes); [injection E as <- _; exact Hg|]. unfold decode_one in E. specialize (Hm m n (or_introl eq_refl)).
  assert (Ki : Forall scalar (k_info m)) by (unfold k_info; apply Forall_app; split; [scalars|exact Sm]).
  assert (Ke : Forall scalar (k_enc m)) by (unfold k_enc; apply Forall_app; split; [scalars|exact Sm]).
  destruct (dget (dotted uuid n) src) as [[bs|fo]|].
  - bdestr E. destruct a as [c e]. cbn [bind] in E. pose proof (raw_enc _ _ _ _ _ E0) as Se. injection E as <- _. apply hgood_dset; [|exact Ke|apply (proj1 (scal_str _)); exact Se]. apply hgood_dset; [exact Hg|exact Ki|apply (proj1 (scal_str _)); scalars].
  - destruct Hm as (ibs & bs & (data & Hb) & _ & Hi & _). change f_info with s_info in Hi. rewrite (brace_read_bytes os data ibs fo s_info Hb Hi) in E. cbn [bind] in E. cbv zeta in E.
    assert (Hg1 : hgood (dset (k_info m) (VList data) h)) by (apply hgood_dset; [exact Hg|exact Ki|eapply brace_scal, Hb]).
    destruct (read_raw_code fo s_text unc) as [[c e]|x] eqn:R.
    + injection E as <- _. apply hgood_dset; [exact Hg1|exact Ke|]. apply (proj1 (scal_str _)). eapply raw_enc; eassumption.
    + destruct x; try discriminate. destruct (find_encrypted encrypted_types fo) as [[t b]|] eqn:F; [|discriminate]. injection E as <- _. apply hgood_dset; [exact Hg1|exact Ke|]. apply (proj1 (scal_str _)). eapply enc_types; eassumption.
  - injection E as <- _. exact Hg.
Qed.
