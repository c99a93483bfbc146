(** The files of a root come back: extension (Root.v). *)
From Coq Require Import String Permutation.
From Verif Require Import PyBase PyInt PyText Utf Cp1251 Codecs Brace Spec_Brace BraceMore BraceFile PipelineMore JsonText JsonTextProofs JsonObj Header HeaderProofs Spec_Misc Pipeline Spec_Stage ObjCode Spec_Obj ObjCodeMain Payload
  Spec_Payload PayloadProofs UpdateDictProofs MetaObj Spec_MetaObj MetaObjBase MetaObjPart MetaObjGood MetaObjList MetaObjMain ClassesProofs EncodeLoop Spec_Encode EncodeLoopMain Types Include Spec_Include IncludeMain Tree Spec_Tree TreeBuild Real Spec_Real RealProofs Classes MetaObj Root Spec_Root RootCore RootLists RootTree RootSteps RootDetect RootVersions RootOpts RootConfig PayloadTmpl.
Open Scope list_scope.
Open Scope N_scope.

Section R.
Variable os : platform.
Variable alnum : N -> bool.
Variable valid : list N -> bool.
Variable lower : list N -> list N.
Variable auto : bool.
Variable src : folder.
Variable fresh : nat -> list N.
Hypothesis fresh_ok : forall n, identifier (fresh n).
Notation object := (object folder written).
Notation made := (made os alnum valid src).

Definition new_info (v copy : val) : list val := [VList [VStr [48]; v]; copy; VList [VStr versions_word]].
Lemma info_written v copy rest bs : brace_bytes os (VList [VStr [48]; v] :: copy :: rest) bs -> exists bs', brace_bytes os (new_info v copy) bs'.
Proof.
  intros (C & Sx & _). assert (C2 : canonical (new_info v copy)).
  { destruct C as (_ & F & _). split; [discriminate|]. split; [|intros E; discriminate]. apply Forall_cons_iff in F. destruct F as [F1 F]. apply Forall_cons_iff in F. destruct F as [F2 _]. constructor; [exact F1|]. constructor; [exact F2|]. constructor; [|constructor].
    eexists. split; [reflexivity|]. apply o_list; [discriminate|reflexivity|]. apply e_leaf; [|constructor]. split; [discriminate|]. split.
    - left. apply Forall_forall. intros c Hc Hi. cbn in Hc. repeat (destruct Hc as [<-|Hc]; [cbn in Hi; repeat (destruct Hi as [Hi|Hi]; [discriminate|]); exact Hi|]). exact Hc.
    - split; [reflexivity|]. split; [reflexivity|]. left. cbn. lia. }
  assert (S2 : Forall scalar (concat (flat_map leaves (new_info v copy)))).
  { change (scal (VList (VList [VStr [48]; v] :: copy :: rest))) in Sx. change (scal (VList (new_info v copy))). unfold new_info. rewrite !scal_cons in *. destruct Sx as (A & B & _). split; [exact A|]. split; [exact B|].
    split; [|apply scal_list; constructor]. split; [|apply scal_list; constructor]. apply (proj1 (scal_str _)). scalars. }
  destruct (file_roundtrip os cp1251_decode [] C2 S2) as (bs' & W & _). exists bs'. split; [exact C2|]. split; [exact S2|exact W].
Qed.
Lemma version_bin_unused name : ~ uses (root_class RExt) name f_version_bin.
Proof.
  intros [H|[H|[(m & x & Hm & H)|(p & Hp & H)]]]; try discriminate.
  cbn in Hp. destruct Hp as [<-|[<-|[<-|[]]]]; cbn in H; try contradiction; discriminate.
Qed.
Lemma version_text product : Forall scalar product -> ~ In 13 product -> exists bs, text_store os e_utf8 product = Ok bs /\ text_load e_utf8 bs = Ok product.
Proof.
  intros H1 H2. unfold text_store, text_load. change (codec_encode e_utf8) with utf8_encode. change (codec_decode e_utf8) with utf8_decode. rewrite (utf8_encode_ok _ (scalar_write_nl os H1)). eexists. split; [reflexivity|].
  rewrite (utf8_decode_ok _ (scalar_write_nl os H1)). cbn [bind]. rewrite (write_nl_nocr os _ H2). reflexivity.
Qed.

Lemma ext_back version fu uuid name locs comment data hdr v copy rest product xs (os' : list object) :
  ext_at os alnum valid auto src version fu uuid name locs comment data hdr v copy rest product xs -> ~ In 13 product -> Forall2 made xs os' -> different lower xs ->
  Forall scalar version /\ detect src = Ok (RExt, version) /\ exists own ks, root_decode os alnum valid auto RExt [] version src = Ok (own, ks) /\ flat_kids ks = map (@child_of _ _) os' /\ txt_read own f_version_bin e_utf8 = Ok product /\
  (forall n, ~ uses (root_class RExt) name n -> n <> f_version_bin -> dget n own = None) /\
  forall srcs, root_sources RExt name own srcs -> exists h h', open_root srcs = Ok (c_name (root_class RExt), version, h, RExt) /\ header_again RExt h srcs = Ok h' /\
  forall o idx listed data' bd', matching idx xs -> ext_puts o comment data data' -> brace_bytes os data' bd' ->
  exists out names, root_encode os alnum lower auto fresh o RExt version h' srcs idx listed = Ok (out, names) /\ Permutation names (root_own RExt fu uuid src) /\
    (forall n, In n (root_own RExt fu uuid src) -> n <> f_configinfo -> n <> fu -> same_entry (dget n src) (dget n out)) /\ dget fu out = Some (TFile bd') /\ in_file os out f_configinfo (new_info v copy).
Proof.
  intros [(If & Ifu) Hnr Hver Hat Hl] Hcr Hm Hd. destruct Hl as (r0 & r1 & count & m & ms & more & rest' & props & compat & Ed & Hc & Hg & Hw & Hb & Hpr & Hcp & Hln).
  destruct (read_in _ _ _ _ If) as (Ir & It & Is). destruct Hver as (s & n & x & w & -> & V1 & V2 & V3). set (v := VList [VStr s; x; VList (VStr version :: w)]) in *. set (info := VList [VStr [48]; v] :: copy :: rest) in *.
  assert (Sv : Forall scalar version) by (unfold info, v in Is; rewrite !scal_cons in Is; apply scal_str; tauto).
  assert (Svv : scal v /\ scal copy) by (unfold info in Is; rewrite !scal_cons in Is; tauto). destruct Svv as [Svv Scopy].
  destruct (root_header_ok _ _ _ _ _ _ _ _ _ _ _ _ _ Hat) as (Hh & Sd & Su & Sn & Sc & Sl & H4).
  pose proof Hat as [Hf Hhd Hfields Hlocs Hval Hparts Hmods (Hfd & Hfx)]. destruct (read_in _ _ _ _ Hf) as (Fr & _ & _).
  assert (HL : has_lists RExt data (map m_inc (m :: ms)) (VStr (m_id m)) (n_b (m_inc m))) by (rewrite Ed; constructor; try assumption; discriminate).
  destruct (@lists_through os alnum valid lower auto src RExt data _ _ _ xs os' HL Hln Hm Hd Sd) as (tree2 & ks & I1 & I2 & St & T1 & T2 & T3 & T4 & Fill). rewrite Hb in T2, T4.
  assert (Hand : forall a b, handler false a b (VList info) = Ok (RExt, version)) by (intros a b; exact (handler_info s n x version w (copy :: rest) V1 V2 V3 a b)).
  split; [exact Sv|]. split.
  { unfold detect. assert (E0 : match dget f_root src with Some (TFile _) => version <- brace_read src f_version ;; root <- brace_read src f_root ;; fu <- vat [0; 1]%nat root ;; fu <- vstr fu ;; header <- brace_read src fu ;; Ok (root, version, header) | _ => Ok (VNone, VNone, VNone) end = Ok (VNone, VNone, VNone))
      by (destruct (dget f_root src) as [[bs|y]|] eqn:E; [exfalso; exact (Hnr bs eq_refl)|reflexivity|reflexivity]).
    rewrite E0. cbn [bind]. destruct If as (bi & If1 & If2). rewrite If1, Ir. cbn [bind vtruthy]. apply Hand. }
  assert (Hhd2 : vat (c_path (root_class RExt)) tree2 = Ok (VList hdr)).
  { change (c_path (root_class RExt)) with (props_at ++ [1; 1]%nat) in *. rewrite (vat_cat _ _ _ _ T2). rewrite <- Hhd. symmetry. apply vat_cat. exact T4. }
  destruct (prop_same _ _ _ _ T4 Hcp) as [C1 _]. destruct (prop_same _ _ _ _ T2 Hcp) as [_ C2]. destruct (prop_same _ _ _ _ T4 Hpr) as [Q1 _]. destruct (prop_same _ _ _ _ T2 Hpr) as [_ Q2].
  assert (Sp : Forall scalar product) by (apply scal_quoted; eapply scal_vat; [exact Sd|exact Q1]). destruct (version_text product Sp Hcr) as (pb & Pw & Pr).
  set (h0 := [(f_configinfo, VList info); (k_v8unpack, VStr v8_version); (k_file_uuid, VStr fu); (f_version, v); (f_copyinfo, copy)] ++ id_entries (mkhobj uuid name locs comment) (VList data) ++ [(k_compat, compat)]).
  assert (Scp : scal compat) by (eapply scal_vat; [exact Sd|exact C1]). assert (Sfu : scal (VStr fu)) by (eapply scal_vat; [exact Scopy|exact Ifu]).
  assert (G0 : hgood h0).
  { split; [apply nodup_strs; reflexivity|]. unfold h0, id_entries. cbn [app h_uuid h_name h_comment].
    repeat (apply Forall_cons; [split; [cbn [fst]; scalars|cbn [snd]; try assumption; try (apply (proj1 (scal_str _)); first [assumption|scalars])]|]). apply Forall_nil. }
  destruct (root_written os alnum RExt src uuid name comment false [] (c_parts (root_class RExt)) (VList data) h0 locs version tree2) as
    (own0 & own1 & own2 & h1 & h2 & h3 & h4 & h5 & codes & D1 & D2 & D3 & D4 & D5 & E5 & K5 & Kh & Own2 & HW); try assumption; try reflexivity.
  { apply keys_none. reflexivity. }
  set (own3 := dset f_version_bin (TFile pb) own2).
  destruct (HW false own3) as (own4 & own' & W1 & W2 & W3 & HB); [discriminate|intros y Hy; unfold own3; apply dget_dset_other; intros ->; exact (version_bin_unused _ Hy)|].
  injection D1 as <- <-. exists own', ks. split; [|split; [exact I2|split; [|split]]].
  { unfold root_decode, ext_decode. rewrite Ir. cbn [bind]. unfold info at 1 2 3. cbn [vat vget nth_error bind] in *. destruct (vget copy 1) as [cv|]; [|discriminate]. cbn [bind] in Ifu. injection Ifu as ->. cbn [bind vstr]. rewrite Fr. cbn [bind]. rewrite Hh. cbn [bind].
    change product_at with (props_at ++ [15%nat]). rewrite Q1. cbn [bind].
    change (compat_at RExt) with (props_at ++ [43%nat]). rewrite C1. cbn [bind]. cbn [h_uuid]. fold h0. cbv zeta. rewrite D2. cbn [bind]. rewrite D3. cbn [bind]. rewrite D4. cbn [bind]. rewrite D5. cbn [bind]. rewrite I1. cbn [bind h_name2 vstr quoted].
    change (34 :: product ++ [34]) with (str_encode product). rewrite str_decode_encode. rewrite (PayloadTmpl.txt_write_ok os product own2 f_version_bin e_utf8 pb Pw) by (left; apply Own2, version_bin_unused). fold own3. cbn [bind].
    rewrite <- E5, W1. cbn [bind]. rewrite W2. reflexivity. }
  { unfold txt_read. rewrite W3 by apply version_bin_unused. unfold own3. rewrite dget_dset_same, Pr. reflexivity. }
  { intros y Hy Hy2. rewrite W3 by exact Hy. unfold own3. rewrite dget_dset_other by exact Hy2. apply Own2, Hy. }
  intros srcs Hs. destruct (HB srcs (proj1 Hs)) as (d & Sj & Rj & Hd5 & Hg5 & B0 & B1 & B2 & BM). set (h := header_of d) in *.
  assert (Fk : forall x v, existsb (str_eqb x) (pkeys (root_class RExt) ++ module_keys RExt) = false -> existsb (str_eqb x) [s_header; s_obj_version] = false -> dget x h0 = v -> dget x h = v).
  { intros y u X1 X2 X3. rewrite Hd5. destruct (free_key _ _ X1) as [Y1 Y2]. apply not_key in X2. rewrite K5; [exact X3|exact Y1|exact Y2| |]; intros ->; apply X2; cbn; tauto. }
  assert (Hv : dget f_version h = Some v) by (apply Fk; reflexivity). assert (Hr : dget f_root h = None) by (apply Fk; reflexivity). assert (Hinf : dget f_configinfo h = Some (VList info)) by (apply Fk; reflexivity).
  assert (Hu : dget s_uuid h = Some (VStr uuid)) by (apply Fk; reflexivity). assert (Hfu : dget k_file_uuid h = Some (VStr fu)) by (apply Fk; reflexivity). assert (Hcpy : dget f_copyinfo h = Some copy) by (apply Fk; reflexivity).
  assert (Hn : dget s_name h = Some (VStr name)) by (apply Fk; reflexivity). assert (Hco : dget s_comment h = Some (VStr comment)) by (apply Fk; reflexivity).
  assert (Hcm : dget k_compat h = Some compat) by (apply Fk; reflexivity). assert (H8 : dget k_v8unpack h = Some (VStr v8_version)) by (apply Fk; reflexivity).
  assert (Hh2 : dget s_header h = Some tree2) by (rewrite Hd5; exact Kh).
  exists h, h. split; [|split].
  { unfold Root.open_root. rewrite (found_root _ _ _ _ Hs Sj). rewrite Rj. cbn [bind]. cbv zeta. fold h. unfold arg. rewrite Hv, Hh2, Hinf, Hg5. unfold flag_of. rewrite <- Hd5, Hr. rewrite Hand. reflexivity. }
  { unfold header_again. rewrite Rj. reflexivity. }
  intros o idx listed data' bd' Hx Ho Hb'.
  destruct (@ext_steps o comment tree2 data data' props compat hdr h T2 T4 Hhd2 H4 Hcp Hcm Ho) as (t1 & t2 & t3 & t4 & b4 & E1 & E2 & E3 & E4 & W4).
  assert (Fill' : root_fill lower auto RExt idx t4 = Ok (VList data')) by (eapply fill_twin; try eassumption; apply (proj1 (proj2 Hb'))).
  set (h6 := dset s_header (VList data') h).
  assert (H6 : forall x, x <> s_header -> dget x h6 = dget x h) by (intros y X; unfold h6; apply dget_dset_other; exact X).
  assert (H64 : forall x, x <> s_header -> x <> s_obj_version -> dget x h6 = dget x h4) by (intros y X1 X2; rewrite H6 by exact X1; rewrite Hd5, E5; rewrite !dget_dset_other by assumption; reflexivity).
  destruct If as (bi & If1 & If2). destruct Hf as (bd & Hf1 & Hf2). destruct (info_written _ _ _ _ If2) as (bn & Bn).
  assert (Fx : forall f n, In f [f_configinfo; fu] -> f <> dotted uuid n).
  { intros f y Hif. apply nodot_dotted. destruct Hif as [<-|[<-|[]]]; first [exact Hfd|apply nodotb; reflexivity]. }
  assert (M6 : mods_agree (root_class RExt) h6 h4) by (intros y Hy; split; apply H64; discriminate).
  destruct (BM h6 M6) as (codes2 & Ec & Wc). destruct (Wc h6 [] [] M6) as (o1 & P3 & P3s & P3o); [reflexivity|].
  pose proof (root_class_ok RExt name) as Hok. destruct Hok as [O1 _ _ O4 _ _ _ _ _ _ _ _ _ _].
  unfold numbers in O1. rewrite map_app in O1. apply nodup_app in O1. destruct O1 as (Nx & Np & Nxp). apply nodup_app in Np. destruct Np as (Np1 & Np2 & Np12).
  rewrite flat_map_app in O4. apply nodup_app in O4. destruct O4 as (Kp & Kl & Kpl).
  set (mods := here uuid src (map snd (c_ext (root_class RExt)))) in *.
  assert (Nm : forall p, In p (c_parts (root_class RExt) ++ c_late (root_class RExt)) -> ~ In (dotted uuid (part_num p)) mods).
  { intros p Hp Hi. apply here_in in Hi. destruct Hi as (t & Ht & E & _). apply dotted_inj in E. apply (Nxp t Ht). rewrite <- E. rewrite <- map_app. apply in_map. exact Hp. }
  destruct (B2 o1 h6 ([] ++ mods)) as (o2 & h7 & P2 & P2s & P2o & P2k).
  { intros y Hxk. destruct (keys_fixed _ _ Hxk) as (_ & _ & _ & _ & X5 & X6 & _). apply H64; assumption. }
  { rewrite H6 by discriminate. exact Hn. } { rewrite H6 by discriminate. exact Hco. } { intros p Hp. rewrite P3o; [reflexivity|]. apply Nm. apply in_or_app. right. exact Hp. }
  assert (O2n : forall f, In f [f_configinfo; fu] -> dget f o2 = None).
  { intros f Hif. rewrite P2o, P3o; [reflexivity| |]; [|intros q Hq; apply Fx; exact Hif]. intros Hi. apply here_in in Hi. destruct Hi as (t & _ & E & _). exact (Fx f t Hif E). }
  assert (Nfu : fu <> f_configinfo) by (intros E; apply Hfx; rewrite E; cbn; tauto).
  set (o3 := dset f_configinfo (TFile bn) o2). set (o4 := dset fu (TFile bd') o3).
  assert (O4d : forall n, dget (dotted uuid n) o4 = dget (dotted uuid n) o2) by (intros y; unfold o4, o3; rewrite !dget_dset_other by (intros E; symmetry in E; revert E; apply Fx; cbn; tauto); reflexivity).
  destruct (B1 o4 h7 (([] ++ mods) ++ here uuid src (map part_num (c_late (root_class RExt))))) as (o5 & h8 & P1 & P1s & P1o & P1k).
  { intros y Hxk. rewrite P2k by (intros Hi; exact (Kpl y Hxk Hi)). destruct (keys_fixed _ _ Hxk) as (_ & _ & _ & _ & X5 & X6 & _). apply H64; assumption. }
  { rewrite P2k by (intros Hi; destruct (keys_fixed _ _ Hi) as (_ & X & _); congruence). rewrite H6 by discriminate. exact Hn. }
  { rewrite P2k by (intros Hi; destruct (keys_fixed _ _ Hi) as (_ & _ & _ & X & _); congruence). rewrite H6 by discriminate. exact Hco. }
  { intros p Hp. rewrite O4d, P2o, P3o; [reflexivity| |].
    - apply Nm. apply in_or_app. left. exact Hp.
    - intros q Hq E. apply dotted_inj in E. apply (Np12 (part_num p)); [|rewrite E]; apply in_map; assumption. }
  cbn [app] in *.
  assert (O5f : forall f, In f [f_configinfo; fu] -> dget f o5 = dget f o4) by (intros f Hif; apply P1o; intros q Hq; apply Fx; exact Hif).
  exists o5, ([f_configinfo; fu] ++ (mods ++ here uuid src (map part_num (c_late (root_class RExt)))) ++ here uuid src (map part_num (c_parts (root_class RExt)))). split; [|split; [|split; [|split]]].
  - unfold root_encode, ext_encode, stored_version. cbv zeta. unfold field at 1. rewrite Hh2. cbn [bind]. rewrite E1. cbn [bind]. rewrite E2. cbn [bind]. rewrite E3. cbn [bind]. rewrite E4. cbn [bind].
    rewrite H8. cbn [bind vstr]. rewrite same_version. cbn [bind]. rewrite Fill'. cbn [bind]. fold h6.
    unfold str_field, field. rewrite !H6 by discriminate. rewrite Hu, Hfu. cbn [bind vstr]. rewrite Hv. cbn [bind]. rewrite Hcpy. cbn [bind]. rewrite Ec. cbn [bind]. rewrite P3. cbn [bind app]. rewrite P2. cbn [bind].
    change (VList [VList [VStr [48]; v]; copy; VList [VStr versions_word]]) with (VList (new_info v copy)). rewrite (brace_write_bytes _ _ _ _ _ Bn) by (left; apply O2n; cbn; tauto). fold o3. cbn [bind].
    assert (Eh7 : dget s_header h7 = Some (VList data')).
    { rewrite P2k; [unfold h6; apply dget_dset_same|]; intros Hi; destruct (keys_fixed _ _ Hi) as (_ & _ & _ & _ & X5 & _); congruence. }
    rewrite Eh7. cbn [bind]. rewrite (brace_write_bytes _ _ _ _ _ Hb') by (left; unfold o3; rewrite dget_dset_other by exact Nfu; apply O2n; cbn; tauto). fold o4. cbn [bind]. rewrite P1. cbn [bind app]. reflexivity.
  - unfold root_own, numbers. rewrite map_app, !here_app. fold mods. apply Permutation_app_head. rewrite <- app_assoc. apply Permutation_app_head. apply Permutation_app_comm.
  - intros y Hin Hne Hnf. unfold root_own in Hin. cbn [app In] in Hin. destruct Hin as [<-|[<-|Hin]]; [congruence|congruence|].
    apply here_in in Hin. destruct Hin as (t & Ht & -> & _). unfold numbers in Ht. apply in_app_or in Ht. destruct Ht as [Ht|Ht].
    + rewrite P1o, O4d, P2o.
      * apply in_map_iff in Ht. destruct Ht as ([a b] & <- & Hab). cbn [snd]. apply (P3s a b Hab).
      * intros q Hq E. apply dotted_inj in E. apply (Nxp t Ht). rewrite E. apply in_or_app. right. apply in_map. exact Hq.
      * intros q Hq E. apply dotted_inj in E. apply (Nxp t Ht). rewrite E. apply in_or_app. left. apply in_map. exact Hq.
    + apply in_map_iff in Ht. destruct Ht as (p & <- & Hp). apply in_app_or in Hp. destruct Hp as [Hp|Hp].
      * rewrite (P1s p Hp). apply same_refl.
      * rewrite P1o by (intros q Hq E; apply dotted_inj in E; apply (Np12 (part_num p)); [rewrite E|]; apply in_map; assumption). rewrite O4d, (P2s p Hp). apply same_refl.
  - rewrite O5f by (cbn; tauto). unfold o4. apply dget_dset_same.
  - exists bn. split; [|exact Bn]. rewrite O5f by (cbn; tauto). unfold o4. rewrite dget_dset_other by congruence. unfold o3. apply dget_dset_same.
Qed.
End R.
