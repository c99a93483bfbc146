(** Steps of the three roots (Root.v): the header list, the header file, values put back where they were. *)
From Coq Require Import String.
From Verif Require Import PyBase PyInt PyText Utf Cp1251 Codecs Brace Spec_Brace BraceMore JsonText JsonTextProofs JsonObj Header HeaderProofs Spec_Misc Pipeline Spec_Stage ObjCode Spec_Obj ObjCodeMain Payload
  Spec_Payload PayloadProofs UpdateDictProofs MetaObj Spec_MetaObj MetaObjBase MetaObjPart MetaObjGood MetaObjList MetaObjMain ClassesProofs EncodeLoop Types Include Tree Real Classes MetaObj Root Spec_Root RootCore RootTree.
Open Scope list_scope.
Open Scope N_scope.

(** ** Values put back *)
Lemma vput_same p : forall v l, vat p v = Ok (VList l) -> vput p (VList l) v = Ok v.
Proof.
  induction p as [|i p IH]; intros v l H; [injection H as ->; reflexivity|]. cbn [vat vput] in *. destruct (vget v i) as [x|] eqn:E; [|discriminate]. cbn [bind] in *. rewrite (IH _ _ H). cbn [bind].
  destruct v as [|s|vs]; cbn [vget] in E; [discriminate| |].
  - destruct (nth_error s i); [|discriminate]. injection E as <-. destruct (vat_str _ _ _ H) as (t & Et). discriminate.
  - unfold Payload.vset. destruct (nth_error vs i) as [y|] eqn:F; [|discriminate]. injection E as ->. rewrite (set_nth_id _ _ _ F). reflexivity.
Qed.
Lemma vat_cat p q v x : vat p v = Ok x -> vat (p ++ q) v = vat q x.
Proof. revert v. induction p as [|i p IH]; intros v H; [injection H as ->; reflexivity|]. cbn [vat app] in *. destruct (vget v i); [|discriminate]. cbn [bind] in *. apply IH, H. Qed.
Lemma vput_cat p q y : forall v x x', vat p v = Ok x -> vput q y x = Ok x' -> vput (p ++ q) y v = vput p x' v.
Proof. induction p as [|i p IH]; intros v x x' H Hp; [injection H as ->; exact Hp|]. cbn [vat vput app] in *. destruct (vget v i) as [z|]; [|discriminate]. cbn [bind] in *. rewrite (IH z x x' H Hp). reflexivity. Qed.
Definition props_at : list nat := [0; 3; 1; 1]%nat.
Lemma prop_same tree props n x : vat props_at tree = Ok (VList props) -> nth_error props n = Some x -> vat (props_at ++ [n]) tree = Ok x /\ vput (props_at ++ [n]) x tree = Ok tree.
Proof.
  intros H Hn. split.
  - rewrite (vat_cat _ _ _ _ H). cbn [vat vget]. rewrite Hn. reflexivity.
  - rewrite (vput_cat props_at [n] x tree (VList props) (VList props) H); [apply vput_same, H|]. cbn [vput vget]. rewrite Hn. cbn [bind]. unfold Payload.vset. rewrite Hn, (set_nth_id _ _ _ Hn). reflexivity.
Qed.

(** ** The header list *)
Lemma root_shape valid h0 a b uuid r1 name locs more comment tl : valid uuid = true -> NoDup (map fst locs) ->
  let hdr := h0 :: VList (a :: b :: VStr uuid :: r1) :: quoted name :: locale_list locs more :: quoted comment :: tl in
  decode_header valid [] hdr false = Ok (mkhobj uuid name locs comment, hdr).
Proof.
  intros Hv Hn hdr. pose proof (header_shape valid [] h0 a b uuid r1 name locs more comment tl Hv Hn) as H. cbn [app] in H. fold hdr in H. unfold decode_header in *.
  unfold hdr in H |- *. cbn [vnth nth_error bind vlist vstr] in *. rewrite Hv in *. cbn [negb] in *. set (u2 := quoted name) in *. set (u3 := locale_list locs more) in *. set (u4 := quoted comment) in *.
  destruct (vstr u2) as [s2|]; [|discriminate]. cbn [bind length Nat.eqb negb andb vnth nth_error] in *. destruct (vlist u3) as [l3|]; [|discriminate]. cbn [bind] in *. destruct (vnth 0 l3) as [c|]; [|discriminate]. cbn [bind] in *.
  destruct (vstr c) as [cs|]; [|discriminate]. cbn [bind] in *. destruct (int_of_str cs) as [n|]; [|discriminate]. cbn [bind] in *. destruct (read_name2 l3 (Z.to_nat n) 0 []) as [n2|]; [|discriminate]. cbn [bind] in *.
  destruct (vstr u4) as [s4|]; [|discriminate]. cbn [bind vlist vnth nth_error Header.vset] in *. injection H as -> -> ->. reflexivity.
Qed.
Section H.
Variables (os : platform) (alnum : N -> bool) (valid : list N -> bool) (src : folder).
Lemma root_header_ok k dirs fu uuid name locs comment data hdr : root_at os alnum valid src k dirs fu uuid name locs comment data hdr ->
  root_header valid k [] (VList data) = Ok (mkhobj uuid name locs comment, VList data) /\ scal (VList data) /\ Forall scalar uuid /\ Forall scalar name /\ Forall scalar comment /\
  Forall (fun kv => Forall scalar (fst kv) /\ Forall scalar (snd kv)) locs /\ vnth 4 hdr = Ok (quoted comment).
Proof.
  intros [(bs & F1 & F2) Hh (h0 & a & b & r1 & more & tl & Eh) Hl Hv Hp Hm Hn]. pose proof (brace_scal _ _ _ F2) as Sd. split.
  - unfold root_header. rewrite Hh. cbn [bind vlist]. rewrite Eh, (root_shape valid h0 a b uuid r1 name locs more comment tl Hv Hl). cbn [bind]. rewrite <- Eh, (vput_same _ _ _ Hh). reflexivity.
  - split; [exact Sd|]. pose proof (scal_vat _ _ _ Sd Hh) as Sh. rewrite Eh in Sh. rewrite !scal_cons in Sh. destruct Sh as (_ & (_ & _ & A & _) & B & C & D & _).
    split; [apply scal_str; exact A|]. split; [apply scal_quoted; exact B|]. split; [apply scal_quoted; exact D|]. split; [eapply locs_scal; exact C|]. rewrite Eh. reflexivity.
Qed.
End H.

(** ** The header file *)
Lemma dget_rev {V} k (d : list (list N * V)) : NoDup (map fst d) -> dget k (rev d) = dget k d.
Proof.
  assert (A : forall k (a b : list (list N * V)), dget k (a ++ b) = match dget k a with Some v => Some v | None => dget k b end).
  { intros k0 a. induction a as [|[k1 v] a IH]; intros b; [reflexivity|]. cbn [app dget]. destruct (str_eqb k0 k1); [reflexivity|apply IH]. }
  induction d as [|[k1 v] d IH]; intros H; [reflexivity|]. cbn [map fst] in H. inversion H as [|? ? Hn Hd]; subst. cbn [rev]. rewrite A, IH by exact Hd. cbn [dget]. destruct (str_eqb k k1) eqn:E.
  - apply str_eqb_spec in E. subst. assert (dget k1 d = None) as -> by (apply dget_none; exact Hn). reflexivity.
  - destruct (dget k d); reflexivity.
Qed.
Lemma dget_jentry n2 h k : k <> s_name2 -> NoDup (dkeys h) -> dget k (flat_map (jentry n2) h) = option_map jv (dget k h).
Proof.
  intros Hk. induction h as [|[k1 v] h IH]; intros H; [reflexivity|]. cbn [dkeys map fst] in H. inversion H as [|? ? Hn Hd]; subst. cbn [flat_map dget]. unfold jentry at 1. cbn [fst snd app dget]. destruct (str_eqb k k1); [reflexivity|].
  destruct (str_eqb k1 s_name); cbn [app dget]; [|apply IH, Hd]. destruct (str_eqb k s_name2) eqn:E; [apply str_eqb_spec in E; congruence|]. apply IH, Hd.
Qed.
Definition flag_of (h : header) : bool := match dget f_root h with Some v => jtruthy (jv v) | None => false end.
Lemma header_given n2 h : hgood h -> dget s_name2 h = None -> exists d, header_json n2 h = Jobj d /\ (forall k, dget k (header_of d) = dget k h) /\ root_given d = flag_of h /\
  (forall k, dget k (header_of ((f_root, Jbool true) :: d)) = dget k h) /\ (dget f_root h = None -> root_given ((f_root, Jbool true) :: d) = true).
Proof.
  intros G H2. exists (flat_map (jentry n2) h). split; [reflexivity|]. pose proof (header_back n2 h _ eq_refl G H2) as B. split; [exact B|].
  assert (N0 : NoDup (map fst (flat_map (jentry n2) h))) by (apply jentry_nodup; [apply G|apply dget_none; exact H2]).
  assert (E : forall k, k <> s_name2 -> dget k (rev (flat_map (jentry n2) h)) = option_map jv (dget k h)) by (intros k Hk; rewrite dget_rev by exact N0; apply dget_jentry; [exact Hk|apply G]).
  split. { unfold root_given, flag_of. rewrite E by discriminate. destruct (dget f_root h); reflexivity. }
  split; [intros k; rewrite <- B; reflexivity|]. intros Hr. unfold root_given. cbn [rev].
  assert (A : forall (a b : list (list N * jval)), dget f_root (a ++ b) = match dget f_root a with Some v => Some v | None => dget f_root b end).
  { intros a. induction a as [|[k1 v] a IH]; intros b; [reflexivity|]. cbn [app dget]. destruct (str_eqb f_root k1); [reflexivity|apply IH]. }
  rewrite A, E by discriminate. rewrite Hr. reflexivity.
Qed.
Lemma with_root_good j : jgood j -> jgood (with_root j).
Proof.
  intros [H1 H2]. destruct j; try (split; assumption). unfold with_root. split; cbn [numsok jstrs forallb flat_map snd fst] in *; [exact H1|]. cbn [app]. constructor; [scalars|exact H2].
Qed.

(** ** The sources of a root *)
Lemma root_class_ok k name : class_ok (root_class k) name.
Proof. apply check_ok; [destruct k; vm_compute; reflexivity|]. intros H. exfalso. destruct k; cbn in H; repeat (destruct H as [H|H]; [discriminate|]); exact H. Qed.
Section W.
Variables (os : platform) (alnum : N -> bool) (k : rkind) (src : folder) (uuid name comment : list N).
Notation c := (root_class k).
Lemma root_written dirs pre l1 tree (h0 : header) locs version tree2 :
  c_parts c = pre ++ l1 ->
  (forall p, In p (c_parts c ++ c_late c) -> entry_ok os alnum p tree comment (dget (dotted uuid (part_num p)) src)) ->
  (forall m n, In (m, n) (c_ext c) -> module_entry os dirs (dget (dotted uuid n) src)) ->
  hgood h0 -> dget s_name h0 = Some (VStr name) -> dget s_comment h0 = Some (VStr comment) -> dget s_header h0 = Some tree -> dget s_name2 h0 = None ->
  (forall x, In x (pkeys c) -> dget x h0 = None) -> (forall m, In m (map fst (c_ext c)) -> dget (k_info m) h0 = None) ->
  scal tree2 -> Forall scalar version -> Forall (fun kv => Forall scalar (fst kv) /\ Forall scalar (snd kv)) locs ->
  exists own0 own1 own2 h1 h2 h3 h4 h5 codes,
    parts_out os alnum pre src uuid [] (c_name c) h0 = Ok (own0, h1) /\ decode_code uuid src (c_ext c) dirs h1 [] = Ok (h2, codes) /\
    parts_out os alnum l1 src uuid own0 (c_name c) h2 = Ok (own1, h3) /\ parts_out os alnum (c_late c) src uuid own1 (c_name c) h3 = Ok (own2, h4) /\
    field s_header h4 = Ok tree /\ h5 = dset s_obj_version (VStr version) (dset s_header tree2 h4) /\
    (forall x, ~ In x (pkeys c) -> (forall m, In m (map fst (c_ext c)) -> x <> k_info m /\ x <> k_enc m) -> x <> s_header -> x <> s_obj_version -> dget x h5 = dget x h0) /\ dget s_header h5 = Some tree2 /\
    (forall n, ~ uses c name n -> dget n own2 = None) /\
    forall (wr : bool) (own3 : folder), (wr = true -> dget f_root h0 = None) -> (forall n, uses c name n -> dget n own3 = dget n own2) ->
    exists own4 own', json_write os (if wr then with_root (header_json locs h5) else header_json locs h5) own3 (dotted (c_name c) x_json) = Ok own4 /\
      write_decode_code os h5 codes (c_name c) own4 = Ok own' /\ (forall n, ~ uses c name n -> dget n own' = dget n own3) /\
      forall srcs : folder, (forall n, uses c name n -> dget n srcs = dget n own') ->
      exists d, (exists bs, dget (dotted (c_name c) x_json) srcs = Some (TFile bs)) /\ json_read srcs (dotted (c_name c) x_json) = Ok (Jobj d) /\ (forall x, dget x (header_of d) = dget x h5) /\ root_given d = (if wr then true else flag_of h5) /\
        parts_come_back os alnum c src uuid name comment srcs h4 pre /\ parts_come_back os alnum c src uuid name comment srcs h4 l1 /\ parts_come_back os alnum c src uuid name comment srcs h4 (c_late c) /\ modules_come_back os c src uuid dirs srcs h4.
Proof.
  intros Epre Hparts Hmods G0 Hn0 Hc0 Hh0 Hn2 Hk0 Hm0 St Sv Sl. pose proof (root_class_ok k name) as Hok.
  destruct (root_core os alnum c src uuid name comment dirs pre l1 tree h0 Hok Epre Hparts Hmods G0 Hn0 Hc0 Hh0 Hk0 Hm0) as (own0 & own1 & own2 & h1 & h2 & h3 & h4 & codes & D1 & D2 & D3 & D4 & G4 & HK & HF & HW).
  set (h5 := dset s_obj_version (VStr version) (dset s_header tree2 h4)).
  assert (G5 : hgood h5) by (unfold h5; apply hgood_dset; [|scalars|apply (proj1 (scal_str _)); exact Sv]; apply hgood_dset; [exact G4|scalars|exact St]).
  assert (H5 : forall x, x <> s_header -> x <> s_obj_version -> dget x h5 = dget x h4) by (intros x X1 X2; unfold h5; rewrite !dget_dset_other by assumption; reflexivity).
  assert (Kn : forall x, x = s_header \/ x = s_name2 \/ x = f_root -> ~ In x (pkeys c) /\ forall m, In m (map fst (c_ext c)) -> x <> k_info m /\ x <> k_enc m).
  { intros x Hx. split.
    - assert (Hb : forallb (fun y => negb (str_eqb s_header y || str_eqb s_name2 y || str_eqb f_root y)) (pkeys c) = true) by (destruct k; vm_compute; reflexivity).
      rewrite forallb_forall in Hb. intros Hi. specialize (Hb x Hi). destruct Hx as [->|[->| ->]]; rewrite str_eqb_refl, ?orb_true_r in Hb; discriminate.
    - intros m Hm. assert (Hb : forallb (fun m => negb (str_eqb s_header (k_info m) || str_eqb s_name2 (k_info m) || str_eqb f_root (k_info m) || str_eqb s_header (k_enc m) || str_eqb s_name2 (k_enc m) || str_eqb f_root (k_enc m))) (map fst (c_ext c)) = true) by (destruct k; vm_compute; reflexivity).
      rewrite forallb_forall in Hb. specialize (Hb m Hm). split; intros E; destruct Hx as [->|[->| ->]]; rewrite E in Hb; rewrite str_eqb_refl, ?orb_true_r in Hb; discriminate. }
  assert (N5 : dget s_name2 h5 = None) by (rewrite H5 by discriminate; rewrite HK by (apply Kn; tauto); exact Hn2).
  exists own0, own1, own2, h1, h2, h3, h4, h5, codes. split; [exact D1|]. split; [exact D2|]. split; [exact D3|]. split; [exact D4|].
  split. { unfold field. rewrite HK by (apply Kn; tauto). rewrite Hh0. reflexivity. }
  split; [reflexivity|]. split. { intros x X1 X2 X3 X4. rewrite H5 by assumption. apply HK; assumption. }
  split. { unfold h5. rewrite dget_dset_other by discriminate. apply dget_dset_same. }
  assert (Own2 : forall n, ~ uses c name n -> dget n own2 = None) by (intros n Hn; apply HF; intros p Hp Ho; apply Hn; right; right; right; exists p; auto).
  split; [exact Own2|]. intros wr own3 Hwr H3. destruct Hok as [O1 O2 O3 O4 O5 O6 O7 O8 O9 O10 O11 O12 O13 O14].
  assert (Msrc : forall m, In m (map fst (c_ext c)) -> m <> s_idname /\ Forall scalar m) by (rewrite Forall_forall in O3; exact O3).
  destruct (header_given locs h5 G5 N5) as (d & J1 & J2 & J3 & J4 & J5).
  assert (Jg : jgood (if wr then with_root (header_json locs h5) else header_json locs h5)) by (destruct wr; [apply with_root_good|]; apply header_json_good; assumption).
  destruct (json_files os _ Jg) as (bs & Wj & Rj). set (own4 := dset (dotted (c_name c) s_json) (TFile bs) own3).
  assert (Uj : uses c name (dotted (c_name c) s_json)) by (left; reflexivity).
  assert (Oj : dget (dotted (c_name c) s_json) own3 = None) by (rewrite (H3 _ Uj); apply HF; intros p Hp; apply (O7 p Hp)).
  assert (W4 : json_write os (if wr then with_root (header_json locs h5) else header_json locs h5) own3 (dotted (c_name c) x_json) = Ok own4) by (apply Wj; left; exact Oj).
  destruct (HW h5 own4) as (own' & W5 & WF & WB).
  { intros m Hm. split; apply H5; discriminate. }
  { intros p n Hp Hown. destruct (O7 p Hp) as [Z1 Z2]. unfold own4. rewrite dget_dset_other by (intros ->; contradiction). apply H3. right. right. right. exists p. auto. }
  { intros m x Hm Hx. destruct (json_no_module m x Hx (c_name c) (proj1 (Msrc m Hm))) as [Q1 Q2]. unfold own4. rewrite dget_dset_other by exact Q1.
    rewrite H3 by (right; right; left; exists m, x; auto). apply HF. intros p Hp Hown. apply (O8 p _ Hp Hown). exists m, x. auto. }
  exists own4, own'. split; [exact W4|]. split; [exact W5|]. split.
  { intros n Hn. rewrite WF by (intros Hs; apply Hn; right; right; left; exact Hs). unfold own4. apply dget_dset_other. intros ->. apply Hn. left. reflexivity. }
  intros srcs Hs.
  assert (Sj : dget (dotted (c_name c) x_json) srcs = Some (TFile bs)).
  { change x_json with s_json. rewrite Hs by exact Uj. rewrite WF; [apply dget_dset_same|]. intros Hms.
    assert (Hb : forallb (fun m => negb (str_eqb s_idname m)) (map fst (c_ext c)) = true) by (destruct k; vm_compute; reflexivity). clear Hb.
    destruct Hms as (m & x & Hm & E). 
    assert (Hd : existsb (N.eqb 46) s_json = false) by reflexivity. unfold source_name, dotted in E. rewrite <- app_assoc in E. apply app_inv_head in E. cbn [app] in E. injection E as E.
    apply (f_equal (existsb (N.eqb 46))) in E. rewrite existsb_app in E. cbn [existsb] in E. rewrite N.eqb_refl, orb_true_l, orb_true_r in E. rewrite Hd in E. discriminate. }
  exists (if wr then (f_root, Jbool true) :: d else d). split; [eauto|].
  split. { rewrite (Rj srcs _ Sj). destruct wr; rewrite J1; reflexivity. }
  split. { destruct wr; assumption. }
  split. { destruct wr; [|exact J3]. apply J5. rewrite H5 by discriminate. rewrite HK by (apply Kn; tauto). apply Hwr. reflexivity. }
  apply WB.
  - intros n Hn. apply Hs. right. right. left. exact Hn.
  - intros p n Hp Hown. apply Hs. right. right. right. exists p. auto.
Qed.
End W.
