(** What the three roots have in common: their files and modules come back from the sources (Root.v). *)
From Coq Require Import String.
From Verif Require Import PyBase PyInt PyText Utf Cp1251 Codecs Brace Spec_Brace BraceMore JsonText JsonTextProofs JsonObj Header HeaderProofs Spec_Misc Pipeline Spec_Stage ObjCode Spec_Obj ObjCodeMain Payload
  Spec_Payload PayloadProofs UpdateDictProofs MetaObj Spec_MetaObj MetaObjBase MetaObjPart MetaObjGood MetaObjList MetaObjMain Classes MetaObj.
Open Scope list_scope.
Open Scope N_scope.

Definition pkeys (c : class) : list (list N) := flat_map part_keys (c_parts c ++ c_late c).
Definition mods_agree (c : class) (h h' : header) : Prop := forall m, In m (map fst (c_ext c)) -> dget (k_info m) h = dget (k_info m) h' /\ dget (k_enc m) h = dget (k_enc m) h'.

Section C.
Variables (os : platform) (alnum : N -> bool) (c : class) (src : folder) (uuid name comment : list N).
Definition parts_come_back (srcs : folder) (h4 : header) (ps : list part) : Prop :=
  forall (out : folder) (h2 : header) files, (forall k, In k (flat_map part_keys ps) -> dget k h2 = dget k h4) -> dget s_name h2 = Some (VStr name) -> dget s_comment h2 = Some (VStr comment) ->
    (forall p, In p ps -> dget (dotted uuid (part_num p)) out = None) ->
    exists out' h3, parts_back os alnum ps srcs (c_name c) uuid out h2 files = Ok (out', h3, files ++ here uuid src (map part_num ps)) /\
      (forall p, In p ps -> dget (dotted uuid (part_num p)) out' = dget (dotted uuid (part_num p)) src) /\
      (forall n, (forall p, In p ps -> n <> dotted uuid (part_num p)) -> dget n out' = dget n out) /\ (forall k, ~ In k (flat_map part_keys ps) -> dget k h3 = dget k h2).
Definition modules_come_back (dirs : bool) (srcs : folder) (h4 : header) : Prop :=
  forall h2, mods_agree c h2 h4 -> exists codes2, encode_code srcs (c_name c) (c_ext c) h2 [] = Ok codes2 /\
    forall (h3 : header) (out : folder) files, mods_agree c h3 h4 -> (forall s, In s (map snd (c_ext c)) -> dget (dotted uuid s) out = None) ->
    exists out', write_encode_code os uuid h3 codes2 (c_ext c) dirs out files = Ok (out', files ++ here uuid src (map snd (c_ext c))) /\
      (forall n s, In (n, s) (c_ext c) -> same_entry (dget (dotted uuid s) src) (dget (dotted uuid s) out')) /\
      (forall x, ~ In x (here uuid src (map snd (c_ext c))) -> dget x out' = dget x out).

Lemma root_core dirs pre l1 tree (h0 : header) :
  class_ok c name -> c_parts c = pre ++ l1 ->
  (forall p, In p (c_parts c ++ c_late c) -> entry_ok os alnum p tree comment (dget (dotted uuid (part_num p)) src)) ->
  (forall m n, In (m, n) (c_ext c) -> module_entry os dirs (dget (dotted uuid n) src)) ->
  hgood h0 -> dget s_name h0 = Some (VStr name) -> dget s_comment h0 = Some (VStr comment) -> dget s_header h0 = Some tree ->
  (forall k, In k (pkeys c) -> dget k h0 = None) -> (forall m, In m (map fst (c_ext c)) -> dget (k_info m) h0 = None) ->
  exists own0 own1 own2 h1 h2 h3 h4 codes,
    parts_out os alnum pre src uuid [] (c_name c) h0 = Ok (own0, h1) /\ decode_code uuid src (c_ext c) dirs h1 [] = Ok (h2, codes) /\
    parts_out os alnum l1 src uuid own0 (c_name c) h2 = Ok (own1, h3) /\ parts_out os alnum (c_late c) src uuid own1 (c_name c) h3 = Ok (own2, h4) /\
    hgood h4 /\ (forall k, ~ In k (pkeys c) -> (forall m, In m (map fst (c_ext c)) -> k <> k_info m /\ k <> k_enc m) -> dget k h4 = dget k h0) /\
    (forall n, (forall p, In p (c_parts c ++ c_late c) -> ~ owns (c_name c) name p n) -> dget n own2 = None) /\
    forall (hw : header) (dest : folder), mods_agree c hw h4 -> (forall p n, In p (c_parts c ++ c_late c) -> owns (c_name c) name p n -> dget n dest = dget n own2) ->
      (forall m x, In m (map fst (c_ext c)) -> nodot x -> dget (source_name (c_name c) m x) dest = None) ->
    exists own', write_decode_code os hw codes (c_name c) dest = Ok own' /\ (forall x, ~ module_source c x -> dget x own' = dget x dest) /\
    forall (srcs : folder), (forall n, module_source c n -> dget n srcs = dget n own') -> (forall p n, In p (c_parts c ++ c_late c) -> owns (c_name c) name p n -> dget n srcs = dget n own') ->
      parts_come_back srcs h4 pre /\ parts_come_back srcs h4 l1 /\ parts_come_back srcs h4 (c_late c) /\ modules_come_back dirs srcs h4.
Proof.
  intros Hok Epre Hparts Hmods G0 Hn0 Hc0 Hh0 Hk0 Hm0. set (fname := c_name c).
  destruct Hok as [O1 O2 O3 O4 O5 O6 O7 O8 O9 O10 O11 O12 O13 O14]. unfold pkeys in *.
  rewrite Epre, <- app_assoc in *. set (late := c_late c) in *.
  rewrite flat_map_app in O4, O5. apply nodup_app in O4. destruct O4 as (K1 & K23 & K123). apply Forall_app in O5. destruct O5 as [KS1 KS23].
  rewrite flat_map_app in K23, KS23. apply nodup_app in K23. destruct K23 as (K2 & K3 & K23). apply Forall_app in KS23. destruct KS23 as [KS2 KS3].
  assert (K12 : forall k, In k (flat_map part_keys pre) -> In k (flat_map part_keys l1) -> False) by (intros k A B; apply (K123 k A); rewrite flat_map_app; apply in_or_app; auto).
  assert (K13 : forall k, In k (flat_map part_keys pre) -> In k (flat_map part_keys late) -> False) by (intros k A B; apply (K123 k A); rewrite flat_map_app; apply in_or_app; auto).
  apply fop_app in O6. destruct O6 as (F1 & F23 & F123). apply fop_app in F23. destruct F23 as (F2 & F3 & F23).
  unfold numbers in O1. rewrite Epre, <- app_assoc in O1. fold late in O1. rewrite !map_app in O1. apply nodup_app in O1. destruct O1 as (Nx & Np & Nxp). apply nodup_app in Np. destruct Np as (Np1 & Np23 & _). apply nodup_app in Np23. destruct Np23 as (Np2 & Np3 & _).
  assert (I1 : forall p, In p pre -> In p (pre ++ l1 ++ late)) by (intros; apply in_or_app; auto).
  assert (I2 : forall p, In p l1 -> In p (pre ++ l1 ++ late)) by (intros; apply in_or_app; right; apply in_or_app; auto).
  assert (I3 : forall p, In p late -> In p (pre ++ l1 ++ late)) by (intros; apply in_or_app; right; apply in_or_app; auto).
  assert (P1 : forall k, In k (flat_map part_keys pre) -> In k (flat_map part_keys (pre ++ l1 ++ late))) by (intros; rewrite flat_map_app; apply in_or_app; auto).
  assert (P2 : forall k, In k (flat_map part_keys l1) -> In k (flat_map part_keys (pre ++ l1 ++ late))) by (intros; rewrite !flat_map_app; apply in_or_app; right; apply in_or_app; auto).
  assert (P3 : forall k, In k (flat_map part_keys late) -> In k (flat_map part_keys (pre ++ l1 ++ late))) by (intros; rewrite !flat_map_app; apply in_or_app; right; apply in_or_app; auto).
  assert (Msrc : forall m, In m (map fst (c_ext c)) -> m <> s_idname /\ Forall scalar m) by (rewrite Forall_forall in O3; exact O3).
  assert (KM : forall k ps, In k (flat_map part_keys ps) -> forall m, k <> k_info m /\ k <> k_enc m) by (intros k ps Hk; apply (keys_fixed _ _ Hk)).
  assert (Fx : forall ps k, k = s_name \/ k = s_comment \/ k = s_header -> ~ In k (flat_map part_keys ps)).
  { intros ps k Hk Hi. destruct (keys_fixed _ _ Hi) as (X1 & X2 & X3 & X4 & X5 & X6 & _). destruct Hk as [->|[->| ->]]; congruence. }
  (* before the modules *)
  destruct (@parts_restored os alnum src uuid fname name comment tree tree pre [] h0) as (own0 & h1 & D1 & DF1 & DK1 & DG1 & DB1); try assumption; try reflexivity.
  { intros p Hp. apply Hparts, I1, Hp. } { intros p Hp. apply O7, I1, Hp. } { intros k Hk. apply Hk0, P1, Hk. }
  (* modules *)
  destruct (@modules_steps os dirs uuid fname (c_ext c) src h1 O2 Nx Hmods) as (h2 & codes & C1 & CK & CW).
  { intros m Hm. rewrite DK1 by (intros Hk; destruct (KM _ _ Hk m) as [Z _]; congruence). apply Hm0, Hm. }
  assert (DG2 : hgood h2) by (eapply code_good; [exact Hmods|exact C1|exact DG1|]; apply Forall_forall; intros m Hm; apply (Msrc m Hm)).
  assert (Fix1 : forall k, k = s_name \/ k = s_comment \/ k = s_header -> dget k h2 = dget k h0).
  { intros k Hk. rewrite CK by (intros m _; destruct Hk as [->|[->| ->]]; split; discriminate). apply DK1. apply Fx, Hk. }
  (* after the modules *)
  destruct (@parts_restored os alnum src uuid fname name comment tree tree l1 own0 h2) as (own1 & h3 & D2 & DF2 & DK2 & DG3 & DB2); try assumption; try reflexivity.
  { intros p Hp. apply Hparts, I2, Hp. }
  { intros p n Hp Hown. rewrite DF1; [reflexivity|]. intros q Hq Hq2. apply (F123 q p Hq) with (n := n); [apply in_or_app; auto|exact Hq2|exact Hown]. }
  { intros p Hp. apply O7, I2, Hp. }
  { rewrite DF1; [reflexivity|]. intros q Hq. apply (O7 q (I1 q Hq)). } { rewrite DF1; [reflexivity|]. intros q Hq. apply (O7 q (I1 q Hq)). }
  { intros k Hk. rewrite CK by (intros m _; apply (KM _ _ Hk)). rewrite DK1 by (intros Hk2; exact (K12 k Hk2 Hk)). apply Hk0, P2, Hk. }
  { rewrite Fix1 by tauto. exact Hn0. } { rewrite Fix1 by tauto. exact Hc0. } { rewrite Fix1 by tauto. exact Hh0. }
  assert (Fix2 : forall k, k = s_name \/ k = s_comment \/ k = s_header -> dget k h3 = dget k h0) by (intros k Hk; rewrite DK2 by (apply Fx, Hk); apply Fix1, Hk).
  destruct (@parts_restored os alnum src uuid fname name comment tree tree late own1 h3) as (own2 & h4 & D3 & DF3 & DK3 & DG4 & DB3); try assumption; try reflexivity.
  { intros p Hp. apply Hparts, I3, Hp. }
  { intros p n Hp Hown. rewrite DF2; [rewrite DF1; [reflexivity|]|]; intros q Hq Hq2; [apply (F123 q p Hq) with (n := n); [apply in_or_app; auto|exact Hq2|exact Hown]|exact (F23 q p Hq Hp n Hq2 Hown)]. }
  { intros p Hp. apply O7, I3, Hp. }
  { rewrite DF2, DF1; [reflexivity| |]; intros q Hq; [apply (O7 q (I1 q Hq))|apply (O7 q (I2 q Hq))]. } { rewrite DF2, DF1; [reflexivity| |]; intros q Hq; [apply (O7 q (I1 q Hq))|apply (O7 q (I2 q Hq))]. }
  { intros k Hk. rewrite DK2 by (intros Hk2; exact (K23 k Hk2 Hk)). rewrite CK by (intros m _; apply (KM _ _ Hk)). rewrite DK1 by (intros Hk2; exact (K13 k Hk2 Hk)). apply Hk0, P3, Hk. }
  { rewrite Fix2 by tauto. exact Hn0. } { rewrite Fix2 by tauto. exact Hc0. } { rewrite Fix2 by tauto. exact Hh0. }
  exists own0, own1, own2, h1, h2, h3, h4, codes.
  split; [exact D1|]. split; [exact C1|]. split; [exact D2|]. split; [exact D3|]. split; [exact DG4|]. split.
  { intros k Hk Hm. rewrite DK3 by (intros Hi; apply Hk, P3, Hi). rewrite DK2 by (intros Hi; apply Hk, P2, Hi). rewrite CK by exact Hm. apply DK1. intros Hi. apply Hk, P1, Hi. }
  split. { intros n Hn. rewrite DF3 by (intros p Hp; apply Hn, I3, Hp). rewrite DF2 by (intros p Hp; apply Hn, I2, Hp). rewrite DF1 by (intros p Hp; apply Hn, I1, Hp). reflexivity. }
  assert (M42 : forall k, (exists m, k = k_info m \/ k = k_enc m) -> dget k h4 = dget k h2).
  { intros k (m & Hm). rewrite DK3, DK2; [reflexivity| |]; intros Hi; destruct (KM _ _ Hi m); destruct Hm; congruence. }
  assert (Ag : forall h : header, mods_agree c h h4 -> forall n, In n (map fst (c_ext c)) -> dget (k_info n) h = dget (k_info n) h2 /\ dget (k_enc n) h = dget (k_enc n) h2).
  { intros h Hh n Hn. destruct (Hh n Hn) as [A B]. rewrite A, B. split; apply M42; eauto. }
  intros hw dest Hw Hd Hx. destruct (CW hw dest (Ag hw Hw) Hx) as (own' & W & WF & WB). exists own'. split; [exact W|].
  assert (WF' : forall x, ~ module_source c x -> dget x own' = dget x dest) by (intros x Hnx; apply WF; intros n e Hn _ ->; apply Hnx; exists n, e; auto).
  split; [exact WF'|]. intros srcs Hs1 Hs2.
  assert (Sp : forall p n, In p (pre ++ l1 ++ late) -> owns fname name p n -> dget n srcs = dget n own2).
  { intros p n Hp Hown. rewrite (Hs2 p n Hp Hown). rewrite WF'; [apply (Hd p n Hp Hown)|apply (O8 p n Hp Hown)]. }
  split; [|split; [|split]].
  - intros out hh files A1 A2 A3 A4. apply (DB1 srcs out hh files); try assumption.
    + intros p n Hp Hown. rewrite (Sp p n (I1 p Hp) Hown). rewrite DF3, DF2; [reflexivity| |]; intros q Hq Hq2; apply (F123 p q Hp) with (n := n); try (apply in_or_app; auto); assumption.
    + intros k Hk. rewrite A1 by exact Hk. rewrite DK3, DK2; [| |]; [|intros Hi; exact (K12 k Hk Hi)|intros Hi; exact (K13 k Hk Hi)]. apply CK. intros m _. apply (KM _ _ Hk).
  - intros out hh files A1 A2 A3 A4. apply (DB2 srcs out hh files); try assumption.
    + intros p n Hp Hown. rewrite (Sp p n (I2 p Hp) Hown). rewrite DF3; [reflexivity|]; intros q Hq Hq2; exact (F23 p q Hp Hq n Hown Hq2).
    + intros k Hk. rewrite A1 by exact Hk. apply DK3. intros Hi; exact (K23 k Hk Hi).
  - intros out hh files A1 A2 A3 A4. apply (DB3 srcs out hh files); try assumption. intros p n Hp Hown. apply (Sp p n (I3 p Hp) Hown).
  - intros hh Hh. destruct (WB srcs hh) as (codes2 & Ec & Wb); [exact Hs1|apply Ag, Hh|]. exists codes2. split; [exact Ec|]. intros hh3 out files Hh3 Ho. apply (Wb hh3 out files (Ag hh3 Hh3) Ho).
Qed.
End C.
