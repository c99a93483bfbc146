(** The files of a root come back: external processor or report (Root.v). *)
From Coq Require Import String Permutation.
From Verif Require Import PyBase PyInt PyText Utf Cp1251 Codecs Brace Spec_Brace BraceMore JsonText JsonTextProofs JsonObj Header HeaderProofs Spec_Misc Pipeline Spec_Stage ObjCode Spec_Obj ObjCodeMain Payload
  Spec_Payload PayloadProofs UpdateDictProofs MetaObj Spec_MetaObj MetaObjBase MetaObjPart MetaObjGood MetaObjList MetaObjMain ClassesProofs EncodeLoop Spec_Encode EncodeLoopMain Types Include Spec_Include IncludeMain Tree Spec_Tree TreeBuild Real Spec_Real RealProofs Classes MetaObj Root Spec_Root RootCore RootLists RootTree RootSteps RootDetect RootVersions RootOpts RootConfig.
Open Scope list_scope.
Open Scope N_scope.

Section R.
Variable os : platform.
Variable alnum : N -> bool.
Variable valid : list N -> bool.
Variable lower : list N -> list N.
Variable auto : bool.
Variable src : folder.
Variable fresh : nat -> list N.
Hypothesis fresh_ok : forall n, identifier (fresh n).
Notation object := (object folder written).
Notation made := (made os alnum valid src).

Lemma proc_back version fu uuid name locs comment data hdr ver copy xs (os' : list object) :
  proc_at os alnum valid auto src version fu uuid name locs comment data hdr ver copy xs -> Forall2 made xs os' -> different lower xs ->
  Forall scalar version /\ detect src = Ok (RProc, version) /\ exists own ks, root_decode os alnum valid auto RProc [] version src = Ok (own, ks) /\ flat_kids ks = map (@child_of _ _) os' /\ (forall n, ~ uses (root_class RProc) name n -> dget n own = None) /\
  forall srcs, root_sources RProc name own srcs -> exists h h', open_root srcs = Ok (c_name (root_class RProc), version, h, RProc) /\ header_again RProc h srcs = Ok h' /\
  forall o idx listed data' bd', matching idx xs -> proc_puts o comment data data' -> brace_bytes os data' bd' -> few (listed ++ root_own RProc fu uuid src ++ [f_versions]) ->
  exists out names, root_encode os alnum lower auto fresh o RProc version h' srcs idx listed = Ok (out, listed ++ names) /\ Permutation names (f_versions :: root_own RProc fu uuid src) /\
    (forall n, In n (root_own RProc fu uuid src) -> n <> fu -> same_entry (dget n src) (dget n out)) /\ dget fu out = Some (TFile bd') /\ versions_in os (listed ++ names) (dget f_versions out).
Proof.
  intros [Rf Vf Cf Hni Hat Hl] Hm Hd. destruct Hl as (x0 & x1 & x2 & ty & i & t3 & t0 & rest & Ed & Hi & Hln & Hver).
  set (rt := [VList [VStr s_two; VStr fu; VStr []]]) in *.
  destruct (read_in _ _ _ _ Rf) as (Rr & Rt & Rs). destruct (read_in _ _ _ _ Vf) as (Vr & _ & Vsc). destruct (read_in _ _ _ _ Cf) as (Cr & _ & Csc).
  assert (Sv : Forall scalar version) by (destruct Hver as [[V _]|[_ ->]]; [eapply version_scal; eassumption|scalars]).
  rewrite old_formats_eq in Hat. destruct (root_header_ok _ _ _ _ _ _ _ _ _ _ _ _ _ Hat) as (Hh & Sd & Su & Sn & Sc & Sl & H4).
  pose proof Hat as [Hf Hhd Hfields Hlocs Hval Hparts Hmods (Hfd & Hfx)]. destruct (read_in _ _ _ _ Hf) as (Fr & _ & _).
  assert (HL : has_lists RProc data [i] ty (n_b i)) by (rewrite Ed; constructor; assumption).
  destruct (@lists_through os alnum valid lower auto src RProc data _ _ _ xs os' HL Hln Hm Hd Sd) as (tree2 & ks & I1 & I2 & St & T1 & T2 & T3 & T4 & Fill).
  assert (Hand : forall header info, vat [0; 3; 0]%nat header = Ok ty -> handler true (VList ver) header info = Ok (RProc, version)).
  { intros header info Hv. destruct Hver as [[V [Ht|Ht]]|[V ->]]; [eapply handler_new; [exact V|exact Hv|exact Ht|apply kind_proc; tauto]|eapply handler_new; [exact V|exact Hv|exact Ht|apply kind_proc; tauto]|apply handler_old; exact V]. }
  split; [exact Sv|]. split.
  { unfold detect. destruct Rf as (brt & Rf1 & Rf2). rewrite Rf1, Vr. cbn [bind]. rewrite Rr. cbn [bind]. unfold rt at 1. cbn [vat vget nth_error bind vstr]. rewrite Fr. cbn [bind].
    assert (E0 : match dget f_configinfo src with Some (TFile _) => brace_read src f_configinfo | _ => Ok VNone end = Ok VNone) by (destruct (dget f_configinfo src) as [[bs|x]|] eqn:E; [exfalso; exact (Hni bs eq_refl)|reflexivity|reflexivity]).
    rewrite E0. cbn [bind]. rewrite Rt. apply Hand. exact T3. }
  assert (Hhd2 : vat (c_path (root_class RProc)) tree2 = Ok (VList hdr)).
  { change (c_path (root_class RProc)) with (props_at ++ [3; 1]%nat) in *. rewrite (vat_cat _ _ _ _ T2). rewrite <- Hhd. symmetry. apply vat_cat. exact T4. }
  set (h0 := [(k_file_uuid, VStr fu)] ++ id_entries (mkhobj uuid name locs comment) (VList data) ++ [(k_v8unpack, VStr v8_version); (f_version, VList ver); (f_copyinfo, VList copy)]).
  assert (Sfu : scal (VStr fu)) by (unfold rt in Rs; rewrite !scal_cons in Rs; tauto).
  assert (G0 : hgood h0).
  { split; [apply nodup_strs; reflexivity|]. unfold h0, id_entries. cbn [app h_uuid h_name h_comment].
    repeat (apply Forall_cons; [split; [cbn [fst]; scalars|cbn [snd]; try assumption; try (apply (proj1 (scal_str _)); first [assumption|scalars])]|]). apply Forall_nil. }
  destruct (root_written os alnum RProc src uuid name comment (old_format version) (c_parts (root_class RProc)) [] (VList data) h0 locs version tree2) as
    (own0 & own1 & own2 & h1 & h2 & h3 & h4 & h5 & codes & D1 & D2 & D3 & D4 & D5 & E5 & K5 & Kh & Own2 & HW); try assumption; try reflexivity.
  { apply keys_none. reflexivity. }
  destruct (HW true own2) as (own4 & own' & W1 & W2 & W3 & HB); [reflexivity|reflexivity|].
  cbn [parts_out] in D3. injection D3 as <- <-. change (c_late (root_class RProc)) with (@nil part) in D4. cbn [parts_out] in D4. injection D4 as <- <-.
  exists own', ks. split; [|split; [exact I2|split]].
  { unfold root_decode, proc_decode. rewrite Rr. cbn [bind]. unfold rt at 1. cbn [vat vget nth_error bind vstr]. rewrite Fr. cbn [bind]. rewrite Hh. cbn [bind]. rewrite Vr. cbn [bind]. rewrite Cr. cbn [bind].
    cbn [h_uuid]. fold h0. cbv zeta. rewrite D1. cbn [bind]. rewrite D2. cbn [bind]. rewrite D5. cbn [bind]. rewrite I1. cbn [bind h_name2].
    rewrite <- E5. cbv iota in W1. rewrite W1. cbn [bind]. rewrite W2. reflexivity. }
  { intros n Hn. rewrite W3 by exact Hn. apply Own2, Hn. }
  intros srcs Hs. destruct (HB srcs (proj1 Hs)) as (d & Sj & Rj & Hd5 & Hg5 & B0 & _ & _ & BM). set (h := header_of d) in *.
  assert (Fk : forall x v, existsb (str_eqb x) (pkeys (root_class RProc) ++ module_keys RProc) = false -> existsb (str_eqb x) [s_header; s_obj_version] = false -> dget x h0 = Some v -> dget x h = Some v).
  { intros x v X1 X2 X3. rewrite Hd5. destruct (free_key _ _ X1) as [Y1 Y2]. apply not_key in X2. rewrite K5; [exact X3|exact Y1|exact Y2| |]; intros ->; apply X2; cbn; tauto. }
  assert (Hv : dget f_version h = Some (VList ver)) by (apply Fk; reflexivity). assert (Hcp : dget f_copyinfo h = Some (VList copy)) by (apply Fk; reflexivity).
  assert (Hu : dget s_uuid h = Some (VStr uuid)) by (apply Fk; reflexivity). assert (Hfu : dget k_file_uuid h = Some (VStr fu)) by (apply Fk; reflexivity).
  assert (Hn : dget s_name h = Some (VStr name)) by (apply Fk; reflexivity). assert (Hco : dget s_comment h = Some (VStr comment)) by (apply Fk; reflexivity).
  assert (H8 : dget k_v8unpack h = Some (VStr v8_version)) by (apply Fk; reflexivity).
  assert (Hh2 : dget s_header h = Some tree2) by (rewrite Hd5; exact Kh).
  exists h, h. split; [|split].
  { unfold Root.open_root. rewrite (found_root _ _ _ _ Hs Sj). rewrite Rj. cbn [bind]. cbv zeta. fold h. unfold arg. rewrite Hv, Hh2, Hg5. rewrite Hand by exact T1. reflexivity. }
  { unfold header_again. rewrite Rj. reflexivity. }
  intros o idx listed data' bd' Hx (cm & Hcm & Ho) Hb' [Hfit Hcnt].
  assert (Hset : exists t, product_comment o RProc tree2 = Ok t /\ root_fill lower auto RProc idx t = Ok (VList data')).
  { destruct cm as [cv|]; cbn [put_opt putv] in Ho.
    - assert (Hbl : exists l, n_b i = VList l).
      { pose proof Hhd as Q. change (c_path (root_class RProc)) with (props_at ++ [3; 1]%nat) in Q. rewrite (vat_cat _ _ _ _ T4) in Q. destruct (n_b i) as [|s|l]; [discriminate| |exists l; reflexivity]. exfalso. clear - Q. cbn in Q. destruct s as [|? [|? [|? [|? ?]]]]; discriminate. }
      destruct Hbl as (l & Hbl). rewrite Hbl in T2, T4. destruct (@twin_step _ _ _ _ _ [3; 1; 4]%nat _ _ (twin_start _ _ T2 T4) Ho) as (b' & t' & _ & Ht & Htw). exists t'. split; [exact (@comment_step RProc o tree2 hdr comment _ Hhd2 H4 Hcm _ Ht)|].
      eapply fill_twin; try eassumption. apply (proj1 (proj2 Hb')).
    - assert (data' = data) as -> by congruence. exists tree2. split; [exact (@comment_step RProc o tree2 hdr comment _ Hhd2 H4 Hcm _ eq_refl)|exact (Fill idx Hx)]. }
  destruct Hset as (t2 & Hset & Fill').
  set (h6 := dset s_header (VList data') h).
  assert (H6 : forall x, x <> s_header -> dget x h6 = dget x h) by (intros x X; unfold h6; apply dget_dset_other; exact X).
  assert (H64 : forall x, x <> s_header -> x <> s_obj_version -> dget x h6 = dget x h2) by (intros x X1 X2; rewrite H6 by exact X1; rewrite Hd5, E5; rewrite !dget_dset_other by assumption; reflexivity).
  destruct Rf as (brt & Rf1 & Rf2). destruct Vf as (bv & Vf1 & Vf2). destruct Hf as (bd & Hf1 & Hf2). destruct Cf as (bc & Cf1 & Cf2).
  assert (Nfu : fu <> f_root /\ fu <> f_version /\ fu <> f_versions /\ fu <> f_copyinfo) by (split; [|split; [|split]]; intros E; apply Hfx; rewrite E; cbn; tauto). destruct Nfu as (Nf1 & Nf2 & Nf3 & Nf4).
  set (o1 := dset f_root (TFile brt) []). set (o2 := dset f_version (TFile bv) o1). set (o3 := dset f_copyinfo (TFile bc) o2). set (o4 := dset fu (TFile bd') o3).
  assert (O4n : forall n, n <> f_root -> n <> f_version -> n <> f_copyinfo -> n <> fu -> dget n o4 = None) by (intros n X1 X2 X3 X4; unfold o4, o3, o2, o1; rewrite !dget_dset_other by assumption; reflexivity).
  assert (Fx : forall f n, In f [f_root; f_version; f_copyinfo; f_versions; fu] -> f <> dotted uuid n).
  { intros f n Hif. apply nodot_dotted. destruct Hif as [<-|[<-|[<-|[<-|[<-|[]]]]]]; first [exact Hfd|apply nodotb; reflexivity]. }
  assert (Ndot : forall n, dget (dotted uuid n) o4 = None) by (intros n; apply O4n; intros E; symmetry in E; revert E; apply Fx; cbn; tauto).
  destruct (B0 o4 h6 []) as (o5 & h7 & P1 & P1s & P1o & P1k).
  { intros x Hxk. destruct (keys_fixed _ _ Hxk) as (_ & _ & _ & _ & X5 & X6 & _). apply H64; assumption. }
  { rewrite H6 by discriminate. exact Hn. } { rewrite H6 by discriminate. exact Hco. } { intros p _. apply Ndot. }
  assert (M7 : mods_agree (root_class RProc) h7 h2).
  { intros x Hxm. assert (Nk : forall y, y = k_info x \/ y = k_enc x -> ~ In y (flat_map part_keys (c_parts (root_class RProc)))) by (intros y Hy Hif; destruct (keys_fixed _ _ Hif) as (_ & _ & _ & _ & _ & _ & Q); destruct (Q x); destruct Hy; congruence).
    rewrite !P1k by (apply Nk; tauto). split; apply H64; discriminate. }
  destruct (BM h7 M7) as (codes2 & Ec & Wc).
  pose proof (root_class_ok RProc name) as Hok. destruct Hok as [O1 _ _ _ _ _ _ _ _ _ _ _ _ _].
  unfold numbers in O1. apply nodup_app in O1. destruct O1 as (Nx & Np & Nxp). change (c_parts (root_class RProc) ++ c_late (root_class RProc)) with (c_parts (root_class RProc)) in *.
  destruct (Wc h7 o5 [] M7) as (o6 & P3 & P3s & P3o).
  { intros s Hsx. rewrite P1o; [apply Ndot|]; intros q Hq E; apply dotted_inj in E; apply (Nxp s Hsx); rewrite E; apply in_map; exact Hq. }
  assert (O6n : forall f, In f [f_root; f_version; f_copyinfo; f_versions; fu] -> dget f o6 = dget f o4).
  { intros f Hif. rewrite P3o; [rewrite P1o; [reflexivity|]; intros q Hq; apply Fx; exact Hif|]. intros Hh5. apply here_in in Hh5. destruct Hh5 as (n & _ & E & _). exact (Fx f n Hif E). }
  set (form := here uuid src (map part_num (c_parts (root_class RProc)))) in *. set (mods := here uuid src (map snd (c_ext (root_class RProc)))) in *.
  assert (Pm : Permutation ([f_root; f_version; f_copyinfo; fu] ++ form ++ [f_versions] ++ mods) (f_versions :: root_own RProc fu uuid src)).
  { unfold root_own, numbers. change (c_parts (root_class RProc) ++ c_late (root_class RProc)) with (c_parts (root_class RProc)). rewrite here_app. fold form mods.
    change (f_versions :: [f_root; f_version; f_copyinfo; fu] ++ mods ++ form) with ([f_versions] ++ [f_root; f_version; f_copyinfo; fu] ++ mods ++ form).
    eapply perm_trans; [|apply Permutation_app_swap_app]. apply Permutation_app_head. eapply perm_trans; [apply Permutation_app_swap_app|]. apply Permutation_app_head. apply Permutation_app_comm. }
  assert (Pm2 : Permutation (listed ++ [f_root; f_version; f_copyinfo; fu] ++ form ++ [f_versions] ++ mods) (listed ++ root_own RProc fu uuid src ++ [f_versions])).
  { apply Permutation_app_head. eapply perm_trans; [exact Pm|]. apply Permutation_cons_append. }
  destruct (@versions_written os fresh fresh_ok (listed ++ [f_root; f_version; f_copyinfo; fu] ++ form ++ [f_versions] ++ mods)) as (vd & vb & Ev & Vo & Vb).
  { eapply Permutation_Forall; [symmetry; exact Pm2|exact Hfit]. }
  { rewrite (Permutation_length Pm2). exact Hcnt. }
  set (o7 := dset f_versions (TFile vb) o6).
  assert (V5 : dget f_versions o6 = None) by (rewrite O6n by (cbn; tauto); apply O4n; first [discriminate|congruence]).
  exists o7, ([f_root; f_version; f_copyinfo; fu] ++ form ++ [f_versions] ++ mods). split; [|split; [exact Pm|split; [|split]]].
  - unfold root_encode, proc_encode, stored_version. cbv zeta. rewrite H8. cbn [bind vstr]. rewrite same_version. cbn [bind]. unfold field at 1. rewrite Hh2. cbn [bind]. rewrite Hset. cbn [bind]. rewrite Fill'. cbn [bind]. fold h6.
    unfold str_field, field. rewrite !H6 by discriminate. rewrite Hu, Hfu. cbn [bind vstr]. fold rt. rewrite (brace_write_bytes _ _ _ _ _ Rf2) by (left; reflexivity). fold o1. cbn [bind]. rewrite Hv. cbn [bind].
    rewrite (brace_write_bytes _ _ _ _ _ Vf2) by (left; reflexivity). fold o2. cbn [bind]. rewrite Hcp. cbn [bind]. rewrite (brace_write_bytes _ _ _ _ _ Cf2) by (left; reflexivity). fold o3. cbn [bind].
    rewrite (brace_write_bytes _ _ _ _ _ Hb') by (left; unfold o3, o2, o1; rewrite !dget_dset_other by assumption; reflexivity). fold o4. cbn [bind]. rewrite P1. cbn [bind app]. rewrite Ec. cbn [bind]. rewrite P3. cbn [bind app].
    change (listed ++ f_root :: f_version :: f_copyinfo :: fu :: form ++ f_versions :: mods) with (listed ++ [f_root; f_version; f_copyinfo; fu] ++ form ++ [f_versions] ++ mods). rewrite Ev.
    rewrite (brace_write_bytes _ _ _ _ _ Vb) by (left; exact V5). reflexivity.
  - assert (O7n : forall n, n <> f_versions -> dget n o7 = dget n o6) by (intros n X; unfold o7; rewrite dget_dset_other by assumption; reflexivity).
    intros n Hin Hnf. unfold root_own in Hin. cbn [app In] in Hin. destruct Hin as [<-|[<-|[<-|[<-|Hin]]]].
    + rewrite O7n, O6n by (cbn; try tauto; discriminate). unfold o4. rewrite dget_dset_other by congruence. unfold o3, o2, o1. rewrite Rf1. apply same_refl.
    + rewrite O7n, O6n by (cbn; try tauto; discriminate). unfold o4. rewrite dget_dset_other by congruence. unfold o3, o2, o1. rewrite Vf1. apply same_refl.
    + rewrite O7n, O6n by (cbn; try tauto; discriminate). unfold o4. rewrite dget_dset_other by congruence. unfold o3, o2, o1. rewrite Cf1. apply same_refl.
    + congruence.
    + apply here_in in Hin. destruct Hin as (s & Hs1 & -> & _). rewrite O7n by (intros E; symmetry in E; revert E; apply Fx; cbn; tauto). unfold numbers in Hs1. apply in_app_or in Hs1. destruct Hs1 as [Hs1|Hs1].
      * apply in_map_iff in Hs1. destruct Hs1 as ([a b] & <- & Hab). cbn [snd]. apply (P3s a b Hab).
      * rewrite P3o. 2:{ intros Hi2. apply here_in in Hi2. destruct Hi2 as (t & Ht & E & _). apply dotted_inj in E. subst t. exact (Nxp s Ht Hs1). }
        apply in_map_iff in Hs1. destruct Hs1 as (p & <- & Hp). rewrite (P1s p Hp). apply same_refl.
  - unfold o7. rewrite dget_dset_other by congruence. rewrite O6n by (cbn; tauto). unfold o4. apply dget_dset_same.
  - exists vd, vb. split; [unfold o7; apply dget_dset_same|]. split; [exact Vb|exact Vo].
Qed.
End R.
