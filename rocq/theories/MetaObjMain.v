(** A whole object is restored (MetaObj.v). *)
From Coq Require Import String.
From Verif Require Import PyBase PyInt PyText Utf Cp1251 Codecs Brace Spec_Brace BraceMore JsonText JsonTextProofs JsonObj Header HeaderProofs Spec_Misc Pipeline Spec_Stage ObjCode Spec_Obj ObjCodeMain Payload
  Spec_Payload PayloadProofs UpdateDictProofs MetaObj Spec_MetaObj MetaObjBase MetaObjPart MetaObjGood MetaObjList.
From Verif Require Props_Misc.
Open Scope list_scope.
Open Scope N_scope.

Lemma fop_app {A} (R : A -> A -> Prop) a b : ForallOrdPairs R (a ++ b) -> ForallOrdPairs R a /\ ForallOrdPairs R b /\ forall x y, In x a -> In y b -> R x y.
Proof.
  induction a as [|x a IH]; cbn [app]; intros H; [split; [constructor|split; [exact H|intros ? ? []]]|]. inversion H as [|? ? H1 H2]; subst. destruct (IH H2) as (A1 & A2 & A3). apply Forall_app in H1. destruct H1 as [B1 B2].
  split; [constructor; assumption|]. split; [exact A2|]. intros x0 y [<-|Hx] Hy; [|apply A3; assumption]. rewrite Forall_forall in B2. apply B2. exact Hy.
Qed.
Lemma nodup_app {A} (a b : list A) : NoDup (a ++ b) -> NoDup a /\ NoDup b /\ forall x, In x a -> In x b -> False.
Proof.
  induction a as [|x a IH]; cbn [app]; intros H; [split; [constructor|split; [exact H|intros ? []]]|]. inversion H as [|? ? H1 H2]; subst. destruct (IH H2) as (A1 & A2 & A3).
  split; [constructor; [intros Hi; apply H1; apply in_or_app; left; exact Hi|exact A1]|]. split; [exact A2|]. intros y [<-|Hy] Hb; [apply H1; apply in_or_app; right; exact Hb|exact (A3 y Hy Hb)].
Qed.
Lemma dotted_self uuid n : uuid <> dotted uuid n.
Proof. unfold dotted. intros H. apply (f_equal (@length N)) in H. rewrite !app_length in H. cbn [length] in H. lia. Qed.
Lemma json_no_module m x : nodot x -> forall f, m <> s_idname -> source_name f m x <> dotted f s_json /\ source_name f m x <> dotted f s_idjson.
Proof.
  intros Hx f Hm. unfold source_name. split; intros H.
  - unfold dotted in H. rewrite <- app_assoc in H. apply app_inv_head in H. cbn [app] in H. injection H as H. apply (f_equal (fun l => existsb (N.eqb 46) l)) in H. rewrite existsb_app in H. cbn [existsb] in H.
    change (46 =? 46) with true in H. rewrite orb_true_r in H. vm_compute in H. discriminate.
  - change (dotted f s_idjson) with (dotted f (s_idname ++ 46 :: s_json)) in H.
    assert (E : source_name f m x = source_name f s_idname s_json) by (unfold source_name; rewrite H; unfold dotted; rewrite <- !app_assoc; reflexivity).
    apply source_inj in E; [|exact Hx|apply nodot_b; reflexivity]. destruct E as [E _]. congruence.
Qed.
Lemma same_refl e : same_entry e e.
Proof. destruct e as [[|]|]; cbn; auto. Qed.
Lemma scal_quoted s : scal (quoted s) -> Forall scalar s.
Proof. intros H. unfold quoted in H. apply scal_str in H. inversion H as [|? ? _ H2]; subst. apply Forall_app in H2. apply H2. Qed.
Lemma quoted_scal s : Forall scalar s -> scal (quoted s).
Proof. intros H. apply (proj1 (scal_str _)). constructor; [split; reflexivity|]. apply Forall_app. split; [exact H|]. constructor; [split; reflexivity|constructor]. Qed.
Lemma locs_scal locs more : scal (locale_list locs more) -> Forall (fun kv => Forall scalar (fst kv) /\ Forall scalar (snd kv)) locs.
Proof.
  intros H. apply Forall_forall. intros kv Hi. unfold locale_list in H.
  assert (K : forall v, In v [quoted (fst kv); quoted (snd kv)] -> scal v).
  { intros v Hv. eapply scal_list_in; [exact H|]. right. apply in_or_app. left. apply in_concat. exists [quoted (fst kv); quoted (snd kv)]. split; [|exact Hv].
    apply in_map_iff. exists kv. auto. }
  split; apply scal_quoted, K; [left|right; left]; reflexivity.
Qed.

Lemma object_core os alnum valid store c prefix dver version (XT : Type) (includes : val -> res (val * XT)) fill x0 (src : folder) uuid name locs comment data hdr options pid :
  class_ok c name -> object_at os alnum c src uuid (prefix ++ name) locs comment data hdr -> carried c dver data includes fill x0 ->
  scal (VList data) -> (store = true -> in_file os src uuid data) ->
  valid uuid = true -> scal dver -> ids_of c dver = ids_of c (VStr version) ->
  ((prefix = [] /\ (options = None \/ options = Some [])) \/ (options = Some prefix /\ Props_Misc.top_level pid /\ Props_Misc.own hdr)) ->
  exists own, obj_decode_data os alnum valid c prefix dver includes src (VList data) = Ok (uuid, name, own, x0) /\
    (forall n, ~ uses c name n -> dget n own = None) /\
    forall (srcs out : folder), (forall n, uses c name n -> dget n srcs = dget n own) ->
      (store = true -> dget uuid out = None) -> (forall n, In n (numbers c) -> dget (dotted uuid n) out = None) ->
      exists out', obj_encode os alnum store c options version pid fill srcs out = Ok (Some (out', mkbuilt uuid name (object_files store c uuid src) (VList data))) /\
        (store = true -> same_entry (dget uuid src) (dget uuid out')) /\
        (forall n, In n (map (dotted uuid) (numbers c)) -> same_entry (dget n src) (dget n out')) /\
        (forall n, ~ In n (object_files store c uuid src) -> dget n out' = dget n out).
Proof.
  intros Hok Hin Hcar Sd Hfile Hval Hver Hdv Hopt. destruct Hin as [Hfmt Hvat (h0 & a & b & r1 & more & tl & Ehdr) Hlocs Hparts Hmods]. set (fname := c_name c).
  pose proof (scal_vat _ _ _ Sd Hvat) as Sh.
  set (hdr' := h0 :: VList (a :: b :: VStr in_separate_file :: r1) :: quoted name :: locale_list locs more :: quoted comment :: tl).
  assert (Hdec : decode_header valid prefix hdr true = Ok (mkhobj uuid name locs comment, hdr')) by (rewrite Ehdr; apply header_shape; assumption).
  assert (Shf : scal (quoted (prefix ++ name)) /\ scal (locale_list locs more) /\ scal (quoted comment) /\ scal (VStr uuid) /\ scal (VList hdr')).
  { rewrite Ehdr in Sh. assert (K : forall v, In v (h0 :: VList (a :: b :: VStr uuid :: r1) :: quoted (prefix ++ name) :: locale_list locs more :: quoted comment :: tl) -> scal v) by (intros v Hv; eapply scal_list_in; eassumption).
    assert (K1 : scal (VList (a :: b :: VStr uuid :: r1))) by (apply K; right; left; reflexivity).
    assert (K2 : forall v, In v (a :: b :: VStr uuid :: r1) -> scal v) by (intros v Hv; eapply scal_list_in; eassumption).
    split; [apply K; right; right; left; reflexivity|]. split; [apply K; right; right; right; left; reflexivity|]. split; [apply K; right; right; right; right; left; reflexivity|].
    split; [apply K2; right; right; left; reflexivity|]. unfold hdr'. apply scal_list. apply Forall_forall. intros v [<-|[<-|[<-|[<-|[<-|Hv]]]]].
    - apply K. left. reflexivity.
    - apply scal_list. apply Forall_forall. intros w [<-|[<-|[<-|Hw]]]; [apply K2; left; reflexivity|apply K2; right; left; reflexivity|apply (proj1 (scal_str _)); scalars|apply K2; right; right; right; exact Hw].
    - assert (Sq : scal (quoted (prefix ++ name))) by (apply K; right; right; left; reflexivity). apply scal_quoted in Sq. apply Forall_app in Sq. apply quoted_scal. apply Sq.
    - apply K; right; right; right; left; reflexivity.
    - apply K; right; right; right; right; left; reflexivity.
    - apply K; right; right; right; right; right; exact Hv. }
  destruct Shf as (Sn & Sl & Sc & Su & Sh'). apply scal_quoted in Sn, Sc. apply Forall_app in Sn. destruct Sn as [_ Sn].
  destruct (vat_vput (c_path c) (VList data) hdr (VList hdr') Hvat) as (marked & M1 & M2 & M3).
  pose proof (scal_vput _ _ _ _ Sd Sh' M1) as Sm.
  destruct (Hcar (VList hdr') marked M1 Sm) as (y & I1 & I2 & Sy & Hids & Hfy).
  set (hh0 := [(s_uuid, VStr uuid); (s_name, VStr name); (s_comment, VStr comment); (s_header, marked)] : header).
  assert (G0 : hgood hh0).
  { split; [apply nodup_strs; reflexivity|]. unfold hh0.
    apply Forall_cons; [split; [cbn [fst]; scalars|exact Su]|]. apply Forall_cons; [split; [cbn [fst]; scalars|apply (proj1 (scal_str _)); exact Sn]|].
    apply Forall_cons; [split; [cbn [fst]; scalars|apply (proj1 (scal_str _)); exact Sc]|]. apply Forall_cons; [split; [cbn [fst]; scalars|exact Sm]|]. apply Forall_nil. }
  destruct Hok as [O1 O2 O3 O4 O5 O6 O7 O8 O9 O10 O11 O12 O13 O14].
  rewrite flat_map_app in O4, O5. apply nodup_app in O4. destruct O4 as (K1 & K2 & K12). apply Forall_app in O5. destruct O5 as [KS1 KS2].
  apply fop_app in O6. destruct O6 as (F1 & F2 & F12).
  unfold numbers in O1. rewrite map_app in O1. apply nodup_app in O1. destruct O1 as (Nx & Np & Nxp). apply nodup_app in Np. destruct Np as (Np1 & Np2 & Np12).
  assert (InL : forall p, In p (c_parts c) -> In p (c_parts c ++ c_late c)) by (intros; apply in_or_app; left; assumption).
  assert (InR : forall p, In p (c_late c) -> In p (c_parts c ++ c_late c)) by (intros; apply in_or_app; right; assumption).
  assert (Msrc : forall m, In m (map fst (c_ext c)) -> m <> s_idname /\ Forall scalar m) by (rewrite Forall_forall in O3; exact O3).
  (* parts before the modules *)
  destruct (@parts_restored os alnum src uuid fname name comment (VList data) marked (c_parts c) [] hh0) as (own1 & h1 & D1 & DF1 & DK1 & DG1 & DB1);
    try assumption; try reflexivity.
  { intros p Hp. apply Hparts. apply InL. exact Hp. } { intros p Hp. apply O7. apply InL. exact Hp. }
  { intros k Hk. apply dget_none. cbn [dkeys map hh0 fst In]. destruct (keys_fixed _ _ Hk) as (X1 & X2 & X3 & X4 & X5 & X6 & _). intros [Z|[Z|[Z|[Z|[]]]]]; congruence. }
  { intros at_ Hat. eapply vat_apart; [apply O9; apply InL; exact Hat|exact M1]. }
  (* modules *)
  assert (KM : forall k ps, In k (flat_map part_keys ps) -> forall m, k <> k_info m /\ k <> k_enc m) by (intros k ps Hk; apply (keys_fixed _ _ Hk)).
  destruct (@modules_steps os false uuid fname (c_ext c) src h1 O2 Nx Hmods) as (h2 & codes & C1 & CK & CW).
  { intros m Hm. rewrite DK1 by (intros Hk; destruct (KM _ _ Hk m) as [Z _]; congruence). reflexivity. }
  assert (DG2 : hgood h2).
  { eapply code_good; [exact Hmods|exact C1|exact DG1|]. apply Forall_forall. intros m Hm. apply (Msrc m Hm). }
  assert (Fix1 : forall k, k = s_uuid \/ k = s_name \/ k = s_name2 \/ k = s_comment \/ k = s_header -> dget k h2 = dget k hh0).
  { intros k Hk. rewrite CK by (intros m _; destruct Hk as [->|[->|[->|[->| ->]]]]; split; discriminate). apply DK1. intros Hi. destruct (keys_fixed _ _ Hi) as (X1 & X2 & X3 & X4 & X5 & X6 & _).
    destruct Hk as [->|[->|[->|[->| ->]]]]; congruence. }
  (* parts after the modules *)
  destruct (@parts_restored os alnum src uuid fname name comment (VList data) marked (c_late c) own1 h2) as (own2 & h3 & D2 & DF2 & DK2 & DG3 & DB2); try assumption.
  { intros p Hp. apply Hparts. apply InR. exact Hp. }
  { intros p n Hp Hown. rewrite DF1; [reflexivity|]. intros q Hq Hq2. exact (F12 q p Hq Hp n Hq2 Hown). }
  { intros p Hp. apply O7. apply InR. exact Hp. }
  { rewrite DF1; [reflexivity|]. intros q Hq. apply (O7 q (InL q Hq)). } { rewrite DF1; [reflexivity|]. intros q Hq. apply (O7 q (InL q Hq)). }
  { intros k Hk. rewrite CK by (intros m _; apply (KM _ _ Hk)). rewrite DK1 by (intros Hk2; exact (K12 k Hk2 Hk)). apply dget_none. cbn [dkeys map hh0 fst In].
    destruct (keys_fixed _ _ Hk) as (X1 & X2 & X3 & X4 & X5 & X6 & _). intros [Z|[Z|[Z|[Z|[]]]]]; congruence. }
  { rewrite Fix1 by tauto. reflexivity. } { rewrite Fix1 by tauto. reflexivity. } { rewrite Fix1 by tauto. reflexivity. }
  { intros at_ Hat. destruct (O10 at_ Hat). }
  assert (Fix2 : forall k, k = s_uuid \/ k = s_name \/ k = s_name2 \/ k = s_comment \/ k = s_header -> dget k h3 = dget k hh0).
  { intros k Hk. rewrite DK2; [apply Fix1; exact Hk|]. intros Hi. destruct (keys_fixed _ _ Hi) as (X1 & X2 & X3 & X4 & X5 & X6 & _). destruct Hk as [->|[->|[->|[->| ->]]]]; congruence. }
  (* identifiers *)
  set (ids_list := ids_of c dver) in *.
  assert (IL : ids_list = [] \/ ids_list = c_ids c) by (unfold ids_list, ids_of; destruct dver as [|s|]; auto; destruct (starts s_803 s); auto).
  assert (Tk : exists ids y2, take_ids ids_list y = Ok (ids, y2) /\ map fst ids = map (fun e : list N * list N * nat => fst (fst e)) ids_list /\ scal y2 /\ Forall (fun e => scal (snd e)) ids /\
     forall d : header, (forall k v, In (k, v) ids -> dget k d = Some v) -> put_ids ids_list d y2 = Ok y).
  { destruct Hids as [->|(a0 & vs & r0 & t0 & Ey & Hpl)]; [exists [], y; split; [reflexivity|split; [reflexivity|split; [exact Sy|split; [constructor|reflexivity]]]]|].
    assert (Nd : NoDup (map (fun e : list N * list N * nat => snd e) ids_list)) by (destruct IL as [-> | ->]; [constructor|exact O13]).
    destruct (take_ids_ok a0 r0 t0 ids_list vs Nd Hpl) as (ids & ws & T & L & Ag & K & F & Sids). exists ids, (ctx a0 r0 t0 ws). rewrite Ey. split; [exact T|]. split; [exact K|].
    assert (Svs : Forall scal vs).
    { change (scal y) in Sy. rewrite Ey in Sy. assert (S1 : scal (VList (a0 :: VList vs :: r0))) by (eapply scal_list_in; [exact Sy|left; reflexivity]).
      assert (S2 : scal (VList vs)) by (eapply scal_list_in; [exact S1|right; left; reflexivity]). apply Forall_forall. intros v Hv. eapply scal_list_in; eassumption. }
    destruct Sids as [S1 S2]; [exact Svs| |].
    { destruct IL as [-> | ->]; [constructor|]. eapply Forall_impl; [|exact O12]. intros e [_ He]. exact He. }
    split; [|split; [exact S2|]].
    - change (scal y) in Sy. rewrite Ey in Sy. unfold ctx. apply scal_list. constructor.
      + apply scal_list. assert (S3 : scal (VList (a0 :: VList vs :: r0))) by (eapply scal_list_in; [exact Sy|left; reflexivity]). constructor; [eapply scal_list_in; [exact S3|left; reflexivity]|].
        constructor; [apply scal_list; exact S1|]. apply Forall_forall. intros v Hv. eapply scal_list_in; [exact S3|right; right; exact Hv].
      + apply Forall_forall. intros v Hv. eapply scal_list_in; [exact Sy|right; exact Hv].
    - intros d Hd. apply put_ids_ok; [exact L|exact Ag|]. intros k m i Hi. destruct (F k m i Hi) as (x & X1 & X2). exists x. split; [exact X1|]. apply Hd. exact X2. }
  destruct Tk as (ids & y2 & T1 & T2 & Sy2 & Sids & T3).
  assert (Fy2 : format_ok (c_format c) y2 = true).
  { destruct O14 as [->|[A1 A2]]; [reflexivity|]. assert (ids_list = []) as E0 by (destruct IL as [-> | ->]; [reflexivity|exact A2]). rewrite E0 in T1. injection T1 as <- <-.
    pose proof (vat_apart _ _ _ _ _ A1 M1) as Ev. rewrite <- Hfmt. unfold format_ok. rewrite Hfy, Ev. reflexivity. }
  set (h4 := dset s_obj_version dver (ddel s_uuid (dset s_header y2 h3))).
  assert (G4 : hgood h4).
  { unfold h4. apply hgood_dset; [|scalars|exact Hver]. apply hgood_ddel. apply hgood_dset; [exact DG3|scalars|exact Sy2]. }
  assert (H4 : forall k, k <> s_obj_version -> k <> s_uuid -> k <> s_header -> dget k h4 = dget k h3).
  { intros k X1 X2 X3. unfold h4. rewrite dget_dset_other by exact X1. rewrite dget_ddel_other by exact X2. apply dget_dset_other. exact X3. }
  assert (H4h : dget s_header h4 = Some y2) by (unfold h4; rewrite dget_dset_other by discriminate; rewrite dget_ddel_other by discriminate; apply dget_dset_same).
  assert (H4n : dget s_name2 h4 = None) by (rewrite H4 by discriminate; rewrite Fix2 by tauto; reflexivity).
  set (jid := Jobj ((s_uuid, Jstr uuid) :: map (fun e : list N * val => (fst e, jv (snd e))) ids)).
  assert (Kid : NoDup (map fst ids) /\ ~ In s_uuid (map fst ids) /\ Forall (Forall scalar) (map fst ids)).
  { rewrite T2. destruct IL as [-> | ->]; [repeat split; [constructor|intros []|constructor]|]. destruct O11 as [Q1 Q2]. split; [exact Q1|]. split; [exact Q2|].
    apply Forall_forall. intros k Hk. apply in_map_iff in Hk. destruct Hk as (e & <- & He). rewrite Forall_forall in O12. apply (O12 e He). }
  destruct Kid as (Kid1 & Kid2 & Kid3).
  assert (Gid : jgood jid).
  { assert (KK : forall e, In e ((s_uuid, Jstr uuid) :: map (fun e : list N * val => (fst e, jv (snd e))) ids) -> Forall scalar (fst e) /\ jgood (snd e)).
    { intros e [<-|He]; [split; [scalars|]; cbn [snd]; change (Jstr uuid) with (jv (VStr uuid)); apply jgood_jv; exact Su|]. apply in_map_iff in He. destruct He as (x & <- & Hx). cbn [fst snd]. split.
      - rewrite Forall_forall in Kid3. apply Kid3. apply in_map. exact Hx.
      - apply jgood_jv. rewrite Forall_forall in Sids. apply (Sids x Hx). }
    unfold jid. split; cbn [numsok jstrs].
    - rewrite forallb_forall. intros e He. apply (KK e He).
    - apply Forall_forall. intros s Hs. apply in_flat_map in Hs. destruct Hs as (e & He & Hs). destruct (KK e He) as [A [_ B]]. destruct Hs as [<-|Hs]; [exact A|]. rewrite Forall_forall in B. apply B. exact Hs. }
  destruct (json_files os jid Gid) as (bid & Wid & Rid).
  destruct (json_files os (header_json locs h4) (header_json_good locs h4 G4 (locs_scal _ _ Sl))) as (bhd & Whd & Rhd).
  (* the folder before the header files *)
  assert (Own2 : forall n, (forall p, In p (c_parts c ++ c_late c) -> ~ owns fname name p n) -> dget n own2 = None).
  { intros n Hn. rewrite DF2 by (intros p Hp; apply Hn; apply InR; exact Hp). rewrite DF1 by (intros p Hp; apply Hn; apply InL; exact Hp). reflexivity. }
  assert (Oj : dget (dotted fname s_json) own2 = None) by (apply Own2; intros p Hp; apply (O7 p Hp)).
  assert (Oi : dget (dotted fname s_idjson) own2 = None) by (apply Own2; intros p Hp; apply (O7 p Hp)).
  set (own3 := dset (dotted fname s_idjson) (TFile bid) own2). set (own4 := dset (dotted fname s_json) (TFile bhd) own3).
  assert (Jne : dotted fname s_json <> dotted fname s_idjson) by (intros E; apply dotted_inj in E; discriminate).
  assert (W3 : json_write os jid own2 (dotted fname x_idjson) = Ok own3) by (apply Wid; left; exact Oi).
  assert (W4 : json_write os (header_json locs h4) own3 (dotted fname x_json) = Ok own4).
  { apply Whd. left. unfold own3. change x_json with s_json. rewrite dget_dset_other by exact Jne. exact Oj. }
  assert (Mk : forall (h : header), (forall k, (exists m, k = k_info m \/ k = k_enc m) -> dget k h = dget k h3) ->
     forall n, In n (map fst (c_ext c)) -> dget (k_info n) h = dget (k_info n) h2 /\ dget (k_enc n) h = dget (k_enc n) h2).
  { intros h Hh n Hn. rewrite !Hh by eauto. split; apply DK2; intros Hi; destruct (KM _ _ Hi n); congruence. }
  destruct (CW h4 own4) as (own5 & W5 & WF & WB).
  { apply Mk. intros k (m & [->| ->]); apply H4; discriminate. }
  { intros m x Hm Hx. destruct (json_no_module m x Hx fname (proj1 (Msrc m Hm))) as [J1 J2]. unfold own4, own3. rewrite !dget_dset_other by assumption. apply Own2. intros p Hp Hown.
    exact (O8 p _ Hp Hown (ex_intro _ m (ex_intro _ x (conj Hm eq_refl)))). }
  assert (Hj5 : dget (dotted fname s_json) own5 = Some (TFile bhd)).
  { rewrite WF; [apply dget_dset_same|]. intros m e Hm He E. destruct (json_no_module m e He fname (proj1 (Msrc m Hm))) as [J1 J2]. congruence. }
  assert (Hi5 : dget (dotted fname s_idjson) own5 = Some (TFile bid)).
  { rewrite WF; [unfold own4; rewrite dget_dset_other by congruence; apply dget_dset_same|]. intros m e Hm He E. destruct (json_no_module m e He fname (proj1 (Msrc m Hm))) as [J1 J2]. congruence. }
  assert (Po5 : forall p n, In p (c_parts c ++ c_late c) -> owns fname name p n -> dget n own5 = dget n own2).
  { intros p n Hp Hown. rewrite WF by (intros m e Hm He ->; exact (O8 p _ Hp Hown (ex_intro _ m (ex_intro _ e (conj Hm eq_refl))))). destruct (O7 p Hp) as [Z1 Z2].
    unfold own4, own3. rewrite !dget_dset_other by (intros ->; contradiction). reflexivity. }
  exists own5. split; [|split].
  - unfold obj_decode_data. rewrite Hfmt. cbn [bind]. rewrite Hvat. cbn [bind vlist]. rewrite Hdec. cbn [bind h_uuid h_name h_comment h_name2]. rewrite M1. cbn [bind]. fold fname. fold hh0.
    rewrite D1. cbn [bind]. rewrite C1. cbn [bind]. rewrite D2. cbn [bind]. unfold field. rewrite Fix2 by tauto. change (dget s_header hh0) with (Some marked). cbn [bind]. rewrite I1. cbn [bind]. fold ids_list. rewrite T1. cbn [bind].
    fold h4. fold jid. rewrite W3. cbn [bind]. rewrite W4. cbn [bind]. rewrite W5. reflexivity.
  - intros n Hn. unfold uses in Hn. fold fname in Hn. rewrite WF by (intros m e Hm He ->; apply Hn; right; right; left; exists m, e; auto).
    unfold own4, own3. rewrite !dget_dset_other by (intros ->; apply Hn; auto). apply Own2. intros p Hp Hown. apply Hn. right. right. right. exists p. auto.
  - intros srcs out Hs Ou On.
    assert (Sj : dget (dotted fname s_json) srcs = Some (TFile bhd)) by (rewrite Hs by (left; reflexivity); exact Hj5).
    assert (Si : dget (dotted fname s_idjson) srcs = Some (TFile bid)) by (rewrite Hs by (right; left; reflexivity); exact Hi5).
    assert (Sp : forall p n, In p (c_parts c ++ c_late c) -> owns fname name p n -> dget n srcs = dget n own2).
    { intros p n Hp Hown. rewrite Hs by (right; right; right; exists p; auto). apply (Po5 p n Hp Hown). }
    set (jd := flat_map (jentry locs) h4). assert (Ejd : header_json locs h4 = Jobj jd) by reflexivity.
    pose proof (header_back locs h4 jd Ejd G4 H4n) as Hback.
    set (hid := header_of ((s_uuid, Jstr uuid) :: map (fun e : list N * val => (fst e, jv (snd e))) ids)).
    assert (Nid : NoDup (map fst ((s_uuid, Jstr uuid) :: map (fun e : list N * val => (fst e, jv (snd e))) ids))).
    { cbn [map fst]. rewrite map_map. cbn [fst]. constructor; assumption. }
    assert (Hid1 : dget s_uuid hid = Some (VStr uuid)).
    { unfold hid, header_of. rewrite header_of_get by exact Nid. cbn [dget]. rewrite str_eqb_refl. reflexivity. }
    assert (Hid2 : forall k v, In (k, v) ids -> dget k hid = Some v).
    { intros k v Hkv. unfold hid, header_of. rewrite header_of_get by exact Nid. rewrite (dget_nodup k (jv v)); [rewrite val_of_jv; reflexivity|exact Nid|]. right. apply in_map_iff. exists (k, v). auto. }
    set (e1 := dset s_uuid (VStr uuid) (header_of jd)). set (e2 := dset s_header marked e1).
    assert (E2 : forall k, k <> s_uuid -> k <> s_header -> dget k e2 = dget k h4).
    { intros k X1 X2. unfold e2, e1. rewrite !dget_dset_other by assumption. apply Hback. }
    assert (E2' : forall k, k <> s_uuid -> k <> s_header -> k <> s_obj_version -> dget k e2 = dget k h3) by (intros k X1 X2 X3; rewrite E2 by assumption; apply H4; assumption).
    assert (E2h : dget s_header e2 = Some marked) by apply dget_dset_same.
    assert (E2n : dget s_name e2 = Some (VStr name)) by (rewrite E2' by discriminate; rewrite Fix2 by tauto; reflexivity).
    assert (E2c : dget s_comment e2 = Some (VStr comment)) by (rewrite E2' by discriminate; rewrite Fix2 by tauto; reflexivity).
    assert (OnP : forall p, In p (c_parts c ++ c_late c) -> dget (dotted uuid (part_num p)) out = None).
    { intros p Hp. apply On. unfold numbers. apply in_or_app. right. apply in_map. exact Hp. }
    (* build the first parts *)
    destruct (DB1 srcs out e2 []) as (out1 & e3 & B1 & B1s & B1f & B1k).
    { intros p n Hp Hown. rewrite (Sp p n (InL p Hp) Hown). rewrite DF2; [reflexivity|]. intros q Hq Hq2. exact (F12 p q Hp Hq n Hown Hq2). }
    { intros k Hk. destruct (keys_fixed _ _ Hk) as (X1 & X2 & X3 & X4 & X5 & X6 & X7). rewrite E2' by assumption. rewrite DK2 by (intros Hk2; exact (K12 k Hk Hk2)). apply CK. intros m _. apply X7. }
    { exact E2n. } { exact E2c. } { intros p Hp. apply OnP. apply InL. exact Hp. }
    assert (E3 : forall k, ~ In k (flat_map part_keys (c_parts c)) -> k <> s_uuid -> k <> s_header -> k <> s_obj_version -> dget k e3 = dget k h3).
    { intros k X0 X1 X2 X3. rewrite B1k by exact X0. apply E2'; assumption. }
    assert (E3m : forall k, (exists m, k = k_info m \/ k = k_enc m) -> dget k e3 = dget k h3).
    { intros k (m & [->| ->]); apply E3; try discriminate; intros Hi; destruct (KM _ _ Hi m); congruence. }
    destruct (WB srcs e3) as (codes2 & Ec & Wb).
    { intros n Hn. apply Hs. right. right. left. exact Hn. } { apply Mk. exact E3m. }
    assert (E3h : dget s_header e3 = Some marked) by (rewrite B1k; [exact E2h|]; intros Hi; destruct (keys_fixed _ _ Hi) as (_ & _ & _ & _ & X5 & _); congruence).
    assert (Eh : encode_header options pid (mkhobj uuid name [] []) hdr' = Ok hdr).
    { change (encode_header options pid (mkhobj uuid name locs comment) hdr' = Ok hdr).
      assert (Q : Props_Misc.quoted_name hdr (prefix ++ name)) by (rewrite Ehdr; reflexivity).
      destruct Hopt as [(-> & Ho)|(-> & Htop & Hown)].
      - eapply (Props_Misc.C34_no_prefix_restored valid hdr true _ hdr' pid name options); eassumption.
      - eapply (Props_Misc.C34_own_object_restored valid prefix hdr true _ hdr' pid name); eassumption. }
    set (e4 := dset s_header (VList data) e3). set (me := if store then [uuid] else []).
    assert (St : exists out2, (if store then out <- brace_write os (VList data) out1 uuid ;; Ok (out, here uuid src (map part_num (c_parts c)) ++ [uuid]) else Ok (out1, here uuid src (map part_num (c_parts c)))) =
        Ok (out2, here uuid src (map part_num (c_parts c)) ++ me) /\ (forall n, ~ In n me -> dget n out2 = dget n out1) /\ (store = true -> dget uuid out2 = dget uuid src)).
    { destruct store; [|exists out1; split; [unfold me; rewrite app_nil_r; reflexivity|split; [reflexivity|discriminate]]]. destruct (Hfile eq_refl) as (bs & Hf & Hb).
      assert (Ou1 : dget uuid out1 = None) by (rewrite B1f; [exact (Ou eq_refl)|]; intros p _; apply dotted_self). exists (dset uuid (TFile bs) out1).
      rewrite (brace_write_bytes _ _ _ _ _ Hb) by (left; exact Ou1). split; [reflexivity|]. split; [intros n Hn; apply dget_dset_other; intros ->; apply Hn; left; reflexivity|intros _; rewrite dget_dset_same, Hf; reflexivity]. }
    destruct St as (out2 & St1 & St2 & St3).
    assert (Nm : forall n, ~ In (dotted uuid n) me) by (intros n; unfold me; destruct store; [intros [E|[]]; apply dotted_self in E; exact E|intros []]).
    destruct (Wb e4 out2 ([] ++ here uuid src (map part_num (c_parts c)) ++ me)) as (out3 & W6 & W6s & W6f).
    { apply Mk. intros k Hk. unfold e4. rewrite dget_dset_other by (destruct Hk as (m & [->| ->]); discriminate). apply E3m. exact Hk. }
    { intros s Hsx. rewrite St2 by apply Nm. rewrite B1f.
      - apply On. unfold numbers. apply in_or_app. left. exact Hsx.
      - intros p Hp E. apply dotted_inj in E. apply (Nxp s Hsx). rewrite E. apply in_or_app. left. apply in_map. exact Hp. }
    (* late parts *)
    assert (Nh : forall p, In p (c_parts c ++ c_late c) -> ~ In (dotted uuid (part_num p)) (here uuid src (map snd (c_ext c)))).
    { intros p Hp Hi. apply here_in in Hi. destruct Hi as (n & Hn & E & _). apply dotted_inj in E. apply (Nxp n Hn). rewrite <- E, <- map_app. apply in_map. exact Hp. }
    assert (Nhu : forall ns, ~ In uuid (here uuid src ns)) by (intros ns Hi; apply here_in in Hi; destruct Hi as (n & _ & E & _); apply dotted_self in E; exact E).
    destruct (DB2 srcs out3 e4 (([] ++ here uuid src (map part_num (c_parts c)) ++ me) ++ here uuid src (map snd (c_ext c)))) as (out4 & e5 & B2 & B2s & B2f & B2k).
    { intros p n Hp Hown. apply (Sp p n (InR p Hp) Hown). }
    { intros k Hk. destruct (keys_fixed _ _ Hk) as (X1 & X2 & X3 & X4 & X5 & X6 & X7). unfold e4. rewrite dget_dset_other by exact X5. apply E3; try assumption. intros Hk2. exact (K12 k Hk2 Hk). }
    { unfold e4. rewrite dget_dset_other by discriminate. rewrite B1k; [exact E2n|]. intros Hi. destruct (keys_fixed _ _ Hi) as (_ & X & _). congruence. }
    { unfold e4. rewrite dget_dset_other by discriminate. rewrite B1k; [exact E2c|]. intros Hi. destruct (keys_fixed _ _ Hi) as (_ & _ & _ & X & _). congruence. }
    { intros p Hp. rewrite W6f by (apply Nh; apply InR; exact Hp). rewrite St2 by apply Nm. rewrite B1f; [apply OnP; apply InR; exact Hp|].
      intros q Hq E. apply dotted_inj in E. apply (Np12 (part_num q)); [apply in_map; exact Hq|]. rewrite <- E. apply in_map. exact Hp. }
    assert (OF : object_files store c uuid src = (([] ++ here uuid src (map part_num (c_parts c)) ++ me) ++ here uuid src (map snd (c_ext c))) ++ here uuid src (map part_num (c_late c))).
    { unfold object_files. cbn [app]. rewrite <- !app_assoc. reflexivity. }
    exists out4. split; [|split; [|split]].
    + unfold obj_encode. fold fname. change x_idjson with s_idjson. change x_json with s_json. rewrite (Rid _ _ Si), (Rhd _ _ Sj). unfold jid. cbn [bind]. rewrite Ejd. cbn [bind]. fold hid.
      unfold str_field, field. rewrite Hid1. cbn [bind vstr]. fold e1. unfold e1 at 1. rewrite dget_dset_other by discriminate. rewrite Hback, H4h. cbn [bind]. rewrite Fy2. cbn [bind]. rewrite <- Hdv. fold ids_list. rewrite (T3 hid Hid2). cbn [bind].
      assert (E1n : dget s_name e1 = Some (VStr name)) by (unfold e2 in E2n; rewrite dget_dset_other in E2n by discriminate; exact E2n). rewrite E1n. cbn [bind vstr].
      assert (E1v : dget s_obj_version e1 = Some dver) by (unfold e1; rewrite dget_dset_other by discriminate; rewrite Hback; unfold h4; apply dget_dset_same). rewrite E1v. cbn [bind].
      rewrite I2. cbn [bind]. fold e2. rewrite B1. cbn [bind]. rewrite Ec. cbn [bind]. rewrite E3h. cbn [bind]. rewrite M2. cbn [bind vlist]. rewrite Eh. cbn [bind]. rewrite M3. cbn [bind]. fold e4.
      change ([] ++ here uuid src (map part_num (c_parts c))) with (here uuid src (map part_num (c_parts c))). rewrite St1. cbn [bind]. cbn [app] in W6, B2. rewrite W6. cbn [bind]. rewrite B2. cbn [bind].
      rewrite OF. cbn [app]. reflexivity.
    + intros Hst. rewrite B2f by (intros p _; apply dotted_self). rewrite W6f by apply Nhu. rewrite (St3 Hst). apply same_refl.
    + intros n Hn.
      apply in_map_iff in Hn. destruct Hn as (k & <- & Hk). unfold numbers in Hk. apply in_app_or in Hk. destruct Hk as [Hk|Hk].
        -- rewrite B2f.
           ++ apply in_map_iff in Hk. destruct Hk as ([m s] & <- & Hms). cbn [snd]. apply (W6s m s Hms).
           ++ intros p Hp E. apply dotted_inj in E. apply (Nxp k Hk). rewrite E, <- map_app. apply in_map. apply InR. exact Hp.
        -- apply in_map_iff in Hk. destruct Hk as (p & <- & Hp). apply in_app_or in Hp. destruct Hp as [Hp|Hp]; [|rewrite B2s by exact Hp; apply same_refl].
           rewrite B2f by (intros q Hq E; apply dotted_inj in E; apply (Np12 (part_num p)); [apply in_map; exact Hp|rewrite E; apply in_map; exact Hq]).
           rewrite W6f by (apply Nh; apply InL; exact Hp). rewrite St2 by apply Nm. rewrite B1s by exact Hp. apply same_refl.
    + intros n Hn. rewrite OF in Hn. change ([] ++ here uuid src (map part_num (c_parts c)) ++ me) with (here uuid src (map part_num (c_parts c)) ++ me) in Hn.
      assert (Hn1 : ~ In n (here uuid src (map part_num (c_parts c)))) by (intros Hi; apply Hn; apply in_or_app; left; apply in_or_app; left; apply in_or_app; left; exact Hi).
      assert (Hn2 : ~ In n me) by (intros Hi; apply Hn; apply in_or_app; left; apply in_or_app; left; apply in_or_app; right; exact Hi).
      assert (Hn3 : ~ In n (here uuid src (map snd (c_ext c)))) by (intros Hi; apply Hn; apply in_or_app; left; apply in_or_app; right; exact Hi).
      assert (Hn4 : ~ In n (here uuid src (map part_num (c_late c)))) by (intros Hi; apply Hn; apply in_or_app; right; exact Hi).
      assert (Cs : forall ps, (forall p, In p ps -> In p (c_parts c ++ c_late c)) -> ~ In n (here uuid src (map part_num ps)) -> (exists p, In p ps /\ n = dotted uuid (part_num p)) -> dget n src = None /\ dget n out = None).
      { intros ps Hsub Hx (p & Hp & ->). split; [|apply OnP; apply Hsub; exact Hp]. destruct (dget (dotted uuid (part_num p)) src) eqn:E; [|reflexivity]. exfalso. apply Hx. apply here_in. exists (part_num p).
        split; [apply in_map; exact Hp|]. split; [reflexivity|congruence]. }
      assert (Dec : forall ps, (exists p, In p ps /\ n = dotted uuid (part_num p)) \/ (forall p, In p ps -> n <> dotted uuid (part_num p))).
      { clear. induction ps as [|p ps [(q & Hq & E)|IH]]; [right; intros ? []|left; exists q; split; [right; exact Hq|exact E]|]. destruct (list_eq_dec N.eq_dec n (dotted uuid (part_num p))) as [E|E]; [left; exists p; split; [left; reflexivity|exact E]|].
        right. intros q [<-|Hq]; [exact E|apply IH; exact Hq]. }
      destruct (Dec (c_late c)) as [Hl|Hl].
      * destruct (Cs _ InR Hn4 Hl) as [Z1 Z2]. destruct Hl as (p & Hp & ->). rewrite B2s by exact Hp. congruence.
      * rewrite B2f by exact Hl. rewrite W6f by exact Hn3. rewrite St2 by exact Hn2. destruct (Dec (c_parts c)) as [Hp|Hp]; [|apply B1f; exact Hp].
        destruct (Cs _ InL Hn1 Hp) as [Z1 Z2]. destruct Hp as (p & Hp & ->). rewrite B1s by exact Hp. congruence.
Qed.
