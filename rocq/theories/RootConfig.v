(** The files of a root come back: configuration (Root.v). *)
From Coq Require Import String Permutation.
From Verif Require Import PyBase PyInt PyText Utf Cp1251 Codecs Brace Spec_Brace BraceMore JsonText JsonTextProofs JsonObj Header HeaderProofs Spec_Misc Pipeline Spec_Stage ObjCode Spec_Obj ObjCodeMain Payload
  Spec_Payload PayloadProofs UpdateDictProofs MetaObj Spec_MetaObj MetaObjBase MetaObjPart MetaObjGood MetaObjList MetaObjMain ClassesProofs EncodeLoop Spec_Encode EncodeLoopMain Types Include Spec_Include IncludeMain Tree Spec_Tree TreeBuild Real Spec_Real RealProofs Classes MetaObj Root Spec_Root RootCore RootLists RootTree RootSteps RootDetect RootVersions RootOpts.
Open Scope list_scope.
Open Scope N_scope.

Lemma nodot_dotted f uuid n : ~ In 46 f -> f <> dotted uuid n.
Proof. intros H ->. apply H. unfold dotted. apply in_or_app. right. left. reflexivity. Qed.
Lemma nodotb f : forallb (fun c => negb (c =? 46)) f = true -> ~ In 46 f.
Proof. intros H Hi. rewrite forallb_forall in H. specialize (H _ Hi). discriminate. Qed.
Lemma keys_none (ks : list (list N)) (h : header) : forallb (fun x => negb (existsb (str_eqb x) (dkeys h))) ks = true -> forall x, In x ks -> dget x h = None.
Proof.
  intros H x Hx. rewrite forallb_forall in H. specialize (H x Hx). apply dget_none. intros Hi. apply negb_true_iff in H. apply Bool.not_true_iff_false in H. apply H. apply existsb_exists. exists x. split; [exact Hi|apply str_eqb_refl].
Qed.
Lemma not_key (ks : list (list N)) x : existsb (str_eqb x) ks = false -> ~ In x ks.
Proof. intros H Hi. apply Bool.not_true_iff_false in H. apply H. apply existsb_exists. exists x. split; [exact Hi|apply str_eqb_refl]. Qed.
Definition module_keys (k : rkind) : list (list N) := flat_map (fun m => [k_info m; k_enc m]) (map fst (c_ext (root_class k))).
Lemma free_key k x : existsb (str_eqb x) (pkeys (root_class k) ++ module_keys k) = false -> ~ In x (pkeys (root_class k)) /\ forall m, In m (map fst (c_ext (root_class k))) -> x <> k_info m /\ x <> k_enc m.
Proof.
  intros H. apply not_key in H. split; [intros Hi; apply H; apply in_or_app; left; exact Hi|]. intros m Hm.
  assert (K : forall y, In y [k_info m; k_enc m] -> x <> y) by (intros y Hy ->; apply H; apply in_or_app; right; apply in_flat_map; exists m; auto).
  split; apply K; [left|right; left]; reflexivity.
Qed.
Section R.
Variable os : platform.
Variable alnum : N -> bool.
Variable valid : list N -> bool.
Variable lower : list N -> list N.
Variable auto : bool.
Variable src : folder.
Variable fresh : nat -> list N.
Hypothesis fresh_ok : forall n, identifier (fresh n).
Notation object := (object folder written).
Notation made := (made os alnum valid src).
Notation open_root := (open_root).

(** a file written by the root *)

Lemma config_back version fu uuid name locs comment data hdr rt ver xs (os' : list object) :
  config_at os alnum valid auto src version fu uuid name locs comment data hdr rt ver xs -> Forall2 made xs os' -> different lower xs ->
  Forall scalar version /\ detect src = Ok (RConfig, version) /\ exists own ks, root_decode os alnum valid auto RConfig [] version src = Ok (own, ks) /\ flat_kids ks = map (@child_of _ _) os' /\ (forall n, ~ uses (root_class RConfig) name n -> dget n own = None) /\
  forall srcs, root_sources RConfig name own srcs -> exists h, open_root srcs = Ok (c_name (root_class RConfig), version, h, RConfig) /\ header_again RConfig h srcs = Ok h /\
  forall o idx listed data' bd', matching idx xs -> config_effect o data data' -> brace_bytes os data' bd' -> few (listed ++ root_own RConfig fu uuid src ++ [f_versions]) ->
  exists out names, root_encode os alnum lower auto fresh o RConfig version h srcs idx listed = Ok (out, listed ++ names) /\ Permutation names (f_versions :: root_own RConfig fu uuid src) /\
    (forall n, In n (root_own RConfig fu uuid src) -> n <> fu -> same_entry (dget n src) (dget n out)) /\ dget fu out = Some (TFile bd') /\ versions_in os (listed ++ names) (dget f_versions out).
Proof.
  intros [(Rf & Rfu) (Vf & Vv) (vs & Vs) Hni Hat Hl] Hm Hd. destruct Hl as (r0 & r1 & count & m & ms & more & rest & props & compat & Ed & Hc & Hg & Hty & Hw & Hb & Hcp & Hln).
  destruct (read_in _ _ _ _ Rf) as (Rr & Rt & Rs). destruct (read_in _ _ _ _ Vf) as (Vr & _ & Vsc). destruct (read_in _ _ _ _ Vs) as (Vsr & _ & Vss).
  pose proof (version_scal _ _ Vv Vsc) as Sv. rewrite old_formats_eq in Hat. destruct (root_header_ok _ _ _ _ _ _ _ _ _ _ _ _ _ Hat) as (Hh & Sd & Su & Sn & Sc & Sl & H4).
  pose proof Hat as [Hf Hhd Hfields Hlocs Hval Hparts Hmods (Hfd & Hfx)]. destruct (read_in _ _ _ _ Hf) as (Fr & _ & _).
  assert (HL : has_lists RConfig data (map m_inc (m :: ms)) (VStr (m_id m)) (n_b (m_inc m))) by (rewrite Ed; constructor; try assumption; discriminate).
  destruct (@lists_through os alnum valid lower auto src RConfig data _ _ _ xs os' HL Hln Hm Hd Sd) as (tree2 & ks & I1 & I2 & St & T1 & T2 & T3 & T4 & Fill). rewrite Hb in T2, T4.
  split; [exact Sv|]. split.
  { unfold detect. destruct Rf as (brt & Rf1 & Rf2). rewrite Rf1, Vr. cbn [bind]. rewrite Rr. cbn [bind]. rewrite Rfu. cbn [bind vstr]. rewrite Fr. cbn [bind].
    assert (E0 : match dget f_configinfo src with Some (TFile _) => brace_read src f_configinfo | _ => Ok VNone end = Ok VNone) by (destruct (dget f_configinfo src) as [[bs|x]|] eqn:E; [exfalso; exact (Hni bs eq_refl)|reflexivity|reflexivity]).
    rewrite E0. cbn [bind]. rewrite Rt. eapply handler_new; [exact Vv|exact T3|exact Hty|reflexivity]. }
  destruct (prop_same _ _ _ _ T4 Hcp) as [C1 _]. destruct (prop_same _ _ _ _ T2 Hcp) as [_ C2].
  set (h0 := [(k_v8unpack, VStr v8_version); (k_file_uuid, VStr fu); (f_root, VList rt)] ++ id_entries (mkhobj uuid name locs comment) (VList data) ++ [(f_version, VList ver); (f_versions, VList vs); (k_compat, compat)]).
  assert (Scp : scal compat) by (eapply scal_vat; [exact Sd|exact C1]).
  assert (Sfu : scal (VStr fu)) by (eapply scal_vat; [exact Rs|exact Rfu]).
  assert (G0 : hgood h0).
  { split; [apply nodup_strs; reflexivity|]. unfold h0, id_entries. cbn [app h_uuid h_name h_comment].
    repeat (apply Forall_cons; [split; [cbn [fst]; scalars|cbn [snd]; try assumption; try (apply (proj1 (scal_str _)); first [assumption|scalars])]|]). apply Forall_nil. }
  destruct (root_written os alnum RConfig src uuid name comment (old_format version) [] (c_parts (root_class RConfig)) (VList data) h0 locs version tree2) as
    (own0 & own1 & own2 & h1 & h2 & h3 & h4 & h5 & codes & D1 & D2 & D3 & D4 & D5 & E5 & K5 & Kh & Own2 & HW); try assumption; try reflexivity.
  { apply keys_none. reflexivity. }
  destruct (HW false own2) as (own4 & own' & W1 & W2 & W3 & HB); [discriminate|reflexivity|].
  injection D1 as <- <-. exists own', ks. split; [|split; [exact I2|split]].
  { unfold root_decode, config_decode. rewrite Rr. cbn [bind]. rewrite Rfu. cbn [bind vstr]. rewrite Fr. cbn [bind]. rewrite Hh. cbn [bind]. rewrite Vr. cbn [bind]. rewrite Vsr. cbn [bind].
    change (compat_at RConfig) with (props_at ++ [26%nat]). rewrite C1. cbn [bind]. cbn [h_uuid]. fold h0. cbv zeta. rewrite D2. cbn [bind]. rewrite D3. cbn [bind]. rewrite D4. cbn [bind]. rewrite D5. cbn [bind]. rewrite I1. cbn [bind h_name2].
    rewrite <- E5, W1. cbn [bind]. rewrite W2. reflexivity. }
  { intros n Hn. rewrite W3 by exact Hn. apply Own2, Hn. }
  intros srcs Hs. destruct (HB srcs (proj1 Hs)) as (d & Sj & Rj & Hd5 & Hg5 & B0 & B1 & B2 & BM). set (h := header_of d) in *.
  assert (Fk : forall x v, existsb (str_eqb x) (pkeys (root_class RConfig) ++ module_keys RConfig) = false -> existsb (str_eqb x) [s_header; s_obj_version] = false -> dget x h0 = Some v -> dget x h = Some v).
  { intros x v X1 X2 X3. rewrite Hd5. destruct (free_key _ _ X1) as [Y1 Y2]. apply not_key in X2. rewrite K5; [exact X3|exact Y1|exact Y2| |]; intros ->; apply X2; cbn; tauto. }
  assert (Hv : dget f_version h = Some (VList ver)) by (apply Fk; reflexivity). assert (Hr : dget f_root h = Some (VList rt)) by (apply Fk; reflexivity).
  assert (Hu : dget s_uuid h = Some (VStr uuid)) by (apply Fk; reflexivity). assert (Hfu : dget k_file_uuid h = Some (VStr fu)) by (apply Fk; reflexivity).
  assert (Hn : dget s_name h = Some (VStr name)) by (apply Fk; reflexivity). assert (Hco : dget s_comment h = Some (VStr comment)) by (apply Fk; reflexivity).
  assert (Hcm : dget k_compat h = Some compat) by (apply Fk; reflexivity). assert (H8 : dget k_v8unpack h = Some (VStr v8_version)) by (apply Fk; reflexivity).
  assert (Hh2 : dget s_header h = Some tree2) by (rewrite Hd5; exact Kh).
  exists h. split; [|split; [reflexivity|]].
  { unfold Root.open_root. rewrite (found_root _ _ _ _ Hs Sj). rewrite Rj. cbn [bind]. cbv zeta. fold h. unfold arg. rewrite Hv, Hh2, Hg5. unfold flag_of. rewrite <- Hd5, Hr. destruct rt as [|r rt]; [discriminate|]. cbn [jv map jtruthy].
    rewrite (handler_new ver version tree2 _ t_config RConfig (VStr (m_id m)) Vv T1 Hty kind_config). reflexivity. }
  intros o idx listed data' bd' Hx Ho Hb' [Hfit Hcnt].
  assert (Hset : exists t, set_compat o RConfig h tree2 = Ok t /\ root_fill lower auto RConfig idx t = Ok (VList data')).
  { unfold set_compat. rewrite Hcm. change (compat_at RConfig) with (props_at ++ [26%nat]). unfold config_effect in Ho. destruct (o_version o) as [cv|]; cbn [option_map if_given] in Ho.
    - destruct Ho as (_ & old & _ & Hch). apply changed_put in Hch. destruct Hch as [_ Hch]. destruct (@twin_step _ _ _ _ _ [26%nat] _ _ (twin_start _ _ T2 T4) Hch) as (b' & t' & _ & Ht & Htw). exists t'. split; [exact Ht|].
      eapply fill_twin; try eassumption. apply (proj1 (proj2 Hb')).
    - subst data'. exists tree2. split; [exact C2|exact (Fill idx Hx)]. }
  destruct Hset as (t2 & Hset & Fill').
  set (h6 := dset s_header (VList data') h).
  assert (H6 : forall x, x <> s_header -> dget x h6 = dget x h) by (intros x X; unfold h6; apply dget_dset_other; exact X).
  assert (H64 : forall x, x <> s_header -> x <> s_obj_version -> dget x h6 = dget x h4) by (intros x X1 X2; rewrite H6 by exact X1; rewrite Hd5, E5; rewrite !dget_dset_other by assumption; reflexivity).
  destruct Rf as (brt & Rf1 & Rf2). destruct Vf as (bv & Vf1 & Vf2). destruct Hf as (bd & Hf1 & Hf2).
  set (o1 := dset f_root (TFile brt) []). set (o2 := dset f_version (TFile bv) o1).
  assert (O2n : forall n, n <> f_root -> n <> f_version -> dget n o2 = None) by (intros n X1 X2; unfold o2, o1; rewrite !dget_dset_other by assumption; reflexivity).
  assert (Fx : forall f n, In f [f_root; f_version; f_versions; fu] -> f <> dotted uuid n).
  { intros f n Hi. apply nodot_dotted. destruct Hi as [<-|[<-|[<-|[<-|[]]]]]; [apply nodotb; reflexivity|apply nodotb; reflexivity|apply nodotb; reflexivity|exact Hfd]. }
  assert (Ndot : forall n, dget (dotted uuid n) o2 = None) by (intros n; apply O2n; intros E; symmetry in E; revert E; apply Fx; cbn; tauto).
  destruct (B1 o2 h6 []) as (o3 & h7 & P1 & P1s & P1o & P1k).
  { intros x Hxk. destruct (keys_fixed _ _ Hxk) as (_ & _ & _ & _ & X5 & X6 & _). apply H64; assumption. }
  { rewrite H6 by discriminate. exact Hn. } { rewrite H6 by discriminate. exact Hco. } { intros p _. apply Ndot. }
  assert (M7 : mods_agree (root_class RConfig) h7 h4).
  { intros x Hxm. assert (Nk : forall y, y = k_info x \/ y = k_enc x -> ~ In y (flat_map part_keys (c_parts (root_class RConfig)))) by (intros y Hy Hi; destruct (keys_fixed _ _ Hi) as (_ & _ & _ & _ & _ & _ & Q); destruct (Q x); destruct Hy; congruence).
    rewrite !P1k by (apply Nk; tauto). split; apply H64; discriminate. }
  destruct (BM h7 M7) as (codes2 & Ec & Wc).
  pose proof (root_class_ok RConfig name) as Hok. destruct Hok as [O1 O2' O3 O4 O5 O6 O7 O8 O9 O10 O11 O12 O13 O14].
  unfold numbers in O1. rewrite map_app in O1. apply nodup_app in O1. destruct O1 as (Nx & Np & Nxp). apply nodup_app in Np. destruct Np as (Np1 & Np2 & Np12).
  rewrite flat_map_app in O4. apply nodup_app in O4. destruct O4 as (Kp & Kl & Kpl).
  destruct (B2 o3 h7 (here uuid src (map part_num (c_parts (root_class RConfig))))) as (o4 & h8 & P2 & P2s & P2o & P2k).
  { intros x Hxk. rewrite P1k by (intros Hi; exact (Kpl x Hi Hxk)). destruct (keys_fixed _ _ Hxk) as (_ & _ & _ & _ & X5 & X6 & _). apply H64; assumption. }
  { rewrite P1k by (intros Hi; destruct (keys_fixed _ _ Hi) as (_ & X & _); congruence). rewrite H6 by discriminate. exact Hn. }
  { rewrite P1k by (intros Hi; destruct (keys_fixed _ _ Hi) as (_ & _ & _ & X & _); congruence). rewrite H6 by discriminate. exact Hco. }
  { intros p Hp. rewrite P1o; [apply Ndot|]. intros q Hq E. apply dotted_inj in E. apply (Np12 (part_num p)); [rewrite E|]; apply in_map; assumption. }
  assert (M8 : mods_agree (root_class RConfig) h8 h4).
  { intros x Hxm. assert (Nk : forall y, y = k_info x \/ y = k_enc x -> ~ In y (flat_map part_keys (c_late (root_class RConfig)))) by (intros y Hy Hi; destruct (keys_fixed _ _ Hi) as (_ & _ & _ & _ & _ & _ & Q); destruct (Q x); destruct Hy; congruence).
    rewrite !P2k by (apply Nk; tauto). apply M7, Hxm. }
  destruct (Wc h8 o4 (here uuid src (map part_num (c_parts (root_class RConfig))) ++ here uuid src (map part_num (c_late (root_class RConfig)))) M8) as (o5 & P3 & P3s & P3o).
  { intros s Hsx. rewrite P2o, P1o; [apply Ndot| |]; intros q Hq E; apply dotted_inj in E; apply (Nxp s Hsx); rewrite E; apply in_or_app; [left|right]; apply in_map; exact Hq. }
  assert (O5n : forall f, In f [f_root; f_version; f_versions; fu] -> dget f o5 = dget f o2).
  { intros f Hi. rewrite P3o; [rewrite P2o, P1o; [reflexivity| |]; intros q Hq; apply Fx; exact Hi|]. intros Hh5. apply here_in in Hh5. destruct Hh5 as (n & _ & E & _). exact (Fx f n Hi E). }
  assert (Nfu : fu <> f_root /\ fu <> f_version /\ fu <> f_versions) by (split; [|split]; intros E; apply Hfx; rewrite E; cbn; tauto). destruct Nfu as (Nf1 & Nf2 & Nf3).
  set (o6 := dset fu (TFile bd') o5).
  set (own := here uuid src (map part_num (c_parts (root_class RConfig))) ++ here uuid src (map part_num (c_late (root_class RConfig))) ++ here uuid src (map snd (c_ext (root_class RConfig)))).
  assert (Ow : (here uuid src (map part_num (c_parts (root_class RConfig))) ++ here uuid src (map part_num (c_late (root_class RConfig)))) ++ here uuid src (map snd (c_ext (root_class RConfig))) = own) by (unfold own; rewrite app_assoc; reflexivity).
  assert (Pm : Permutation ([f_root; f_version; fu; f_versions] ++ own) (f_versions :: root_own RConfig fu uuid src)).
  { unfold root_own. cbn [app]. eapply perm_trans; [|apply perm_swap]. apply perm_skip. eapply perm_trans; [|apply perm_swap]. apply perm_skip. eapply perm_trans; [apply perm_swap|]. apply perm_skip. apply perm_skip.
    unfold own, numbers. rewrite map_app, !here_app, app_assoc. apply Permutation_app_comm. }
  destruct (@versions_written os fresh fresh_ok (listed ++ [f_root; f_version; fu; f_versions] ++ own)) as (vd & vb & Ev & Vo & Vb).
  { assert (Pm2 : Permutation (listed ++ [f_root; f_version; fu; f_versions] ++ own) (listed ++ root_own RConfig fu uuid src ++ [f_versions])).
    { apply Permutation_app_head. eapply perm_trans; [exact Pm|]. apply Permutation_cons_append. }
    eapply Permutation_Forall; [symmetry; exact Pm2|exact Hfit]. }
  { assert (Pm2 : Permutation (listed ++ [f_root; f_version; fu; f_versions] ++ own) (listed ++ root_own RConfig fu uuid src ++ [f_versions])).
    { apply Permutation_app_head. eapply perm_trans; [exact Pm|]. apply Permutation_cons_append. }
    rewrite (Permutation_length Pm2). exact Hcnt. }
  set (o7 := dset f_versions (TFile vb) o6).
  assert (V5 : dget f_versions o6 = None) by (unfold o6; rewrite dget_dset_other by congruence; rewrite O5n by (cbn; tauto); apply O2n; discriminate).
  exists o7, ([f_root; f_version; fu; f_versions] ++ own). split; [|split; [exact Pm|split; [|split]]].
  - unfold root_encode, config_encode, stored_version. cbv zeta. rewrite H8. cbn [bind vstr]. rewrite same_version. cbn [bind]. unfold field at 1. rewrite Hh2. cbn [bind]. rewrite Hset. cbn [bind]. rewrite Fill'. cbn [bind]. fold h6.
    unfold str_field, field. rewrite !H6 by discriminate. rewrite Hu, Hfu. cbn [bind vstr]. rewrite Hr. cbn [bind]. rewrite (brace_write_bytes _ _ _ _ _ Rf2) by (left; reflexivity). fold o1. cbn [bind]. rewrite Hv. cbn [bind].
    rewrite (brace_write_bytes _ _ _ _ _ Vf2) by (left; reflexivity). fold o2. cbn [bind]. rewrite P1. cbn [bind app]. rewrite Ec. cbn [bind]. rewrite P2. cbn [bind]. rewrite P3. cbn [bind].
    assert (Eh8 : dget s_header h8 = Some (VList data')).
    { rewrite P2k, P1k; [unfold h6; apply dget_dset_same| |]; intros Hi; destruct (keys_fixed _ _ Hi) as (_ & _ & _ & _ & X5 & _); congruence. }
    rewrite Eh8. cbn [bind]. rewrite (brace_write_bytes _ _ _ _ _ Hb') by (left; rewrite O5n by (cbn; tauto); apply O2n; congruence). fold o6. cbn [bind]. rewrite Ow. change (listed ++ f_root :: f_version :: fu :: f_versions :: own) with (listed ++ [f_root; f_version; fu; f_versions] ++ own). rewrite Ev.
    rewrite (brace_write_bytes _ _ _ _ _ Vb) by (left; exact V5). reflexivity.
  - assert (O7n : forall n, n <> fu -> n <> f_versions -> dget n o7 = dget n o5) by (intros n X1 X2; unfold o7, o6; rewrite !dget_dset_other by assumption; reflexivity).
    intros n Hi Hnf. unfold root_own in Hi. cbn [app In] in Hi. destruct Hi as [<-|[<-|[<-|Hi]]].
    + rewrite O7n, O5n by (cbn; try tauto; try congruence; discriminate). unfold o2. rewrite dget_dset_other by discriminate. unfold o1. rewrite dget_dset_same, Rf1. apply same_refl.
    + rewrite O7n, O5n by (cbn; try tauto; try congruence; discriminate). unfold o2. rewrite dget_dset_same, Vf1. apply same_refl.
    + congruence.
    + apply here_in in Hi. destruct Hi as (s & Hs1 & -> & _). rewrite O7n by (intros E; symmetry in E; revert E; apply Fx; cbn; tauto). unfold numbers in Hs1. apply in_app_or in Hs1. destruct Hs1 as [Hs1|Hs1].
      * apply in_map_iff in Hs1. destruct Hs1 as ([a b] & <- & Hab). cbn [snd]. apply (P3s a b Hab).
      * rewrite P3o. 2:{ intros Hi2. apply here_in in Hi2. destruct Hi2 as (t & Ht & E & _). apply dotted_inj in E. subst t. rewrite map_app in Hs1. exact (Nxp s Ht Hs1). }
        apply in_map_iff in Hs1. destruct Hs1 as (p & <- & Hp). apply in_app_or in Hp. destruct Hp as [Hp|Hp].
        -- rewrite P2o by (intros q Hq E; apply dotted_inj in E; apply (Np12 (part_num p)); [|rewrite E]; apply in_map; assumption). rewrite (P1s p Hp). apply same_refl.
        -- rewrite (P2s p Hp). apply same_refl.
  - unfold o7, o6. rewrite dget_dset_other by congruence. apply dget_dset_same.
  - exists vd, vb. split; [unfold o7; apply dget_dset_same|]. split; [exact Vb|exact Vo].
Qed.
End R.
