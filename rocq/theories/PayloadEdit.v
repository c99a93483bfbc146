(** Help texts and HTML templates edited between extraction and assembly: lemmas for Props_Payload.v. *)
From Verif Require Import PyBase PyText Utf Cp1251 PyB64 B64 Brace Spec_Brace BraceMain BraceFile BraceMore Pipeline Spec_Stage ObjCode ObjCodeMain Payload Spec_Payload PayloadProofs.
Open Scope list_scope.
Open Scope N_scope.

Lemma b64c_char c : b64c c -> plain_char c /\ c <> OPEN /\ payload_char c.
Proof.
  unfold b64c, b64_alpha, b64_pad, plain_char, payload_char, OPEN, COMMA, CLOSE, QUOTE, LF, CR. intros H.
  split; [|split; [lia|]]; cbn [In]; lia.
Qed.
Lemma b64_text_chars b : B64.bytes b -> Forall (fun c => plain_char c /\ c <> OPEN /\ payload_char c) (b64_encode b).
Proof. intros H. apply b64_encode_chars in H. rewrite Forall_forall in *. intros c Hc. apply b64c_char, H, Hc. Qed.
Lemma data_accepts b : B64.bytes b -> b64_accepts (s_data ++ b64_encode b) = true.
Proof.
  intros H. unfold b64_accepts. apply andb_true_iff. split.
  - rewrite forallb_app. apply andb_true_iff. split; [reflexivity|]. apply forallb_forall. intros c Hc. pose proof (b64_encode_chars _ H) as K.
    rewrite Forall_forall in K. apply K, b64c_ascii in Hc. lia.
  - assert (E : b64_go 0 0 (s_data ++ b64_encode b) = b64_go 0 0 (b64_encode b)) by reflexivity. rewrite E, (b64_go_dec _ 0 0 0) by reflexivity.
    rewrite (b64_dec_encode _ H). reflexivity.
Qed.
Lemma plain_data : Forall (fun c => plain_char c /\ c <> OPEN) s_data.
Proof. apply Forall_forall. intros c Hc. unfold s_data in Hc. unfold plain_char, OPEN, COMMA, CLOSE, QUOTE, LF, CR. cbn [In] in *. split; lia. Qed.

(** every payload has a mark under which it is a regular object with the same text *)
Lemma payload_regular mark b : In mark marks -> B64.bytes b -> exists mark2, In mark2 marks /\ obj_ok [VStr (mark2 ++ b64_encode b)] /\
  forall nl, enc_str nl (mark ++ b64_encode b) = enc_str nl (mark2 ++ b64_encode b).
Proof.
  intros Hm Hb. pose proof (b64_text_chars _ Hb) as K.
  assert (Kp : forall m, forallb (fun c => negb (existsb (N.eqb c) [CLOSE; LF; CR])) m = true -> Forall payload_char (m ++ b64_encode b)).
  { intros m Em. apply Forall_app. split.
    - rewrite forallb_forall in Em. apply Forall_forall. intros c Hc Hin. apply Em in Hc. apply negb_true_iff in Hc.
      assert (existsb (N.eqb c) [CLOSE; LF; CR] = true) by (apply existsb_exists; exists c; split; [exact Hin|apply N.eqb_refl]). congruence.
    - eapply Forall_impl; [|exact K]. intros c Hc. apply Hc. }
  assert (H2 : obj_ok [VStr (pp_base64 ++ b64_encode b)]) by (apply o_b64; right; split; [reflexivity|apply Kp; reflexivity]).
  destruct Hm as [<-|[<-|[<-|[]]]].
  - exists pp_base64. split; [left; reflexivity|]. split; [exact H2|reflexivity].
  - destruct (Nat.le_gt_cases 64 (length (b64_encode b))) as [Hl|Hl].
    + exists p_base64. split; [right; left; reflexivity|]. split; [|reflexivity]. apply o_b64. left. split; [reflexivity|]. split; [|apply Kp; reflexivity].
      rewrite app_length. change (length p_base64) with 8%nat. lia.
    + exists pp_base64. split; [left; reflexivity|]. split; [exact H2|]. intros nl. fold p_base64. unfold enc_str.
      change (starts p_base64 (p_base64 ++ b64_encode b)) with true. change (starts p_base64 (pp_base64 ++ b64_encode b)) with false.
      change (starts pp_base64 (pp_base64 ++ b64_encode b)) with true. cbv iota.
      assert (L : (length (p_base64 ++ b64_encode b) < 72)%nat) by (rewrite app_length; change (length p_base64) with 8%nat; lia).
      rewrite firstn_all2 by lia. cbn [fold_b64]. replace (Nat.leb 72 (length (p_base64 ++ b64_encode b))) with false by (symmetry; apply Nat.leb_gt; exact L).
      rewrite app_nil_r. reflexivity.
  - exists s_data. split; [right; right; left; reflexivity|]. split; [|reflexivity]. apply o_list; [discriminate|reflexivity|].
    assert (Pl : Forall (fun c => plain_char c /\ c <> OPEN) (s_data ++ b64_encode b)).
    { apply Forall_app. split; [apply plain_data|]. eapply Forall_impl; [|exact K]. intros c Hc. split; apply Hc. }
    destruct (Nat.le_gt_cases (length (s_data ++ b64_encode b)) 64) as [Hl|Hl].
    + apply e_leaf; [|constructor]. split; [discriminate|]. split; [left; eapply Forall_impl; [|exact Pl]; intros c Hc; apply Hc|]. split; [reflexivity|]. split; [reflexivity|]. left. exact Hl.
    + apply e_long. split; [exact Pl|]. split; [reflexivity|]. split; [reflexivity|]. split; [exact Hl|]. apply data_accepts. exact Hb.
Qed.

Lemma elems_replace pre o o' l : obj_ok o' -> forall b, elems_ok b (pre ++ VList o :: l) -> elems_ok b (pre ++ VList o' :: l).
Proof.
  intros Ho. induction pre as [|v pre IH]; cbn [app]; intros b H.
  - inversion H; subst. apply e_obj; assumption.
  - inversion H; subst.
    + apply e_none. apply IH. assumption.
    + apply e_empty. apply IH. assumption.
    + apply e_leaf; [assumption|]. apply IH. assumption.
    + destruct pre; discriminate.
    + apply e_obj; [assumption|]. apply IH. assumption.
Qed.
Lemma canonical_replace s s' data data' : slot1 data s data' s' -> obj_ok [VStr s'] -> canonical data -> canonical data'.
Proof.
  intros (a & b & c & l & t & -> & ->) Ho (H1 & H2 & H3). split; [discriminate|]. split; [|exact H3].
  inversion H2 as [|? ? (r & E & Hr) Ht]; subst. injection E as <-. constructor; [|exact Ht]. eexists. split; [reflexivity|].
  inversion Hr as [|? Hn Hf He]; subst. apply o_list; [discriminate|exact Hf|]. apply (elems_replace [a; b; c]) with (o := [VStr s]); assumption.
Qed.
Lemma scalar_replace s s' data data' : slot1 data s data' s' -> Forall scalar s' -> Forall scalar (concat (flat_map leaves data)) -> Forall scalar (concat (flat_map leaves data')).
Proof.
  intros (a & b & c & l & t & -> & ->) Hs H. rewrite Forall_forall in *. intros x Hx. apply in_concat in Hx. destruct Hx as (y & Hy & Hx).
  cbn [flat_map leaves app] in Hy. rewrite !in_app_iff in Hy. cbn [In] in Hy. 
  assert (K : forall z, In z (flat_map leaves (VList (a :: b :: c :: VList [VStr s] :: l) :: t)) -> forall w, In w z -> scalar w).
  { intros z Hz w Hw. apply H. apply in_concat. exists z. auto. }
  cbn [flat_map leaves app] in K.
  destruct Hy as [[Hy|[Hy|[Hy|[Hy|Hy]]]]|Hy]; try (apply (K y); [rewrite !in_app_iff; cbn [In]; rewrite ?in_app_iff; tauto|exact Hx]).
  subst y. apply Hs, Hx.
Qed.
Lemma write_same os data data' s s' : slot1 data s data' s' -> (forall nl, enc_str nl s = enc_str nl s') -> brace_file_write os data [] = brace_file_write os data' [].
Proof.
  intros (a & b & c & l & t & -> & ->) E. unfold brace_file_write. 
  assert (Er : encode_root_object (VList (a :: b :: c :: VList [VStr s] :: l) :: t) = encode_root_object (VList (a :: b :: c :: VList [VStr s'] :: l) :: t)); [|rewrite Er; reflexivity].
  unfold encode_root_object. cbn [enc_roots_go enc_root1]. 
  assert (Eo : enc_obj CRLF (a :: b :: c :: VList [VStr s] :: l) = enc_obj CRLF (a :: b :: c :: VList [VStr s'] :: l)); [|rewrite Eo; reflexivity].
  unfold enc_obj. rewrite !enc_elems_cons, !enc_val_list, !enc_elems_cons. cbn [enc_val]. rewrite (E CRLF). reflexivity.
Qed.
Lemma b64_scalar mark b : In mark marks -> B64.bytes b -> Forall scalar (mark ++ b64_encode b).
Proof.
  intros Hm Hb. assert (A : forall l, Forall (fun c => c < 128) l -> Forall scalar l).
  { intros l. apply Forall_impl. intros c Hc. unfold scalar. split; [lia|unfold is_surrogate; lia]. }
  apply A. apply Forall_app. split.
  - destruct Hm as [<-|[<-|[<-|[]]]]; apply Forall_forall; intros c; cbn [In]; lia.
  - eapply Forall_impl; [|apply b64_encode_chars; exact Hb]. apply b64c_ascii.
Qed.
Lemma edited_bytes os data bs s mark b : brace_bytes os data bs -> slot1 data s data s -> In mark marks -> B64.bytes b ->
  exists data1 data2 mark2 bs2, In mark2 marks /\ slot1 data s data1 (mark ++ b64_encode b) /\ slot1 data s data2 (mark2 ++ b64_encode b) /\
    brace_bytes os data2 bs2 /\ brace_file_write os data1 [] = (Ok tt, bs2).
Proof.
  intros (H1 & H2 & H3) (a & b0 & c & l & t & E & _) Hm Hb. destruct (payload_regular mark b Hm Hb) as (mark2 & Hm2 & Ho & Ee).
  set (d s := VList (a :: b0 :: c :: VList [VStr s] :: l) :: t).
  assert (S1 : forall x, slot1 data s (d x) x) by (intros x; do 5 eexists; split; [exact E|reflexivity]).
  assert (S2 : slot1 (d (mark ++ b64_encode b)) (mark ++ b64_encode b) (d (mark2 ++ b64_encode b)) (mark2 ++ b64_encode b)) by (do 5 eexists; split; reflexivity).
  assert (C : canonical (d (mark2 ++ b64_encode b))) by (eapply canonical_replace; [apply S1|exact Ho|exact H1]).
  assert (Sc : Forall scalar (concat (flat_map leaves (d (mark2 ++ b64_encode b))))) by (eapply scalar_replace; [apply S1|apply b64_scalar; assumption|exact H2]).
  destruct (file_roundtrip os cp1251_decode [] C Sc) as (bs2 & W & _).
  exists (d (mark ++ b64_encode b)), (d (mark2 ++ b64_encode b)), mark2, bs2. split; [exact Hm2|]. split; [apply S1|]. split; [apply S1|]. split; [split; [exact C|split; [exact Sc|exact W]]|].
  rewrite (write_same os _ _ _ _ S2 Ee). exact W.
Qed.
Lemma slot1_slot data s data' s' : slot1 data s data' s' -> slot data s data' s'.
Proof. intros (a & b & c & l & t & E1 & E2). exists a, b, c, [], l, t. auto. Qed.
Lemma slot1_refl data s data' s' : slot1 data s data' s' -> slot1 data' s' data' s'.
Proof. intros (a & b & c & l & t & E1 & E2). exists a, b, c, l, t. auto. Qed.
Lemma slot1_det data s d1 d2 x : slot1 data s d1 x -> slot1 data s d2 x -> d1 = d2.
Proof. intros (a & b & c & l & t & E1 & E2) (a' & b' & c' & l' & t' & E1' & E2'). subst. congruence. Qed.

(** the HTML file replaced by any bytes [new], or deleted *)
Lemma help_edited os uuid number fname field ext (src dest out : folder) (h : header) files data bs mark old (new : option (list N)) :
  dget (dotted uuid number) src = Some (TFile bs) -> brace_bytes os data bs -> (N.of_nat (length bs) <= 1000000)%N -> In mark marks -> B64.bytes old ->
  slot1 data (mark ++ b64_encode old) data (mark ++ b64_encode old) ->
  ext <> s_bin -> dget (dotted fname ext) dest = None -> dget (dotted fname s_bin) dest = None -> dget (dotted uuid number) out = None ->
  (forall b, new = Some b -> B64.bytes b) ->
  exists dest' h', html_decode src uuid number dest fname field ext h = Ok (dest', h') /\
    dget (dotted fname ext) dest' = Some (TFile old) /\
    forall (srcs : folder) (h2 : header),
      dget (dotted fname ext) srcs = option_map TFile new -> dget (dotted fname s_bin) srcs = None -> dget field h2 = dget field h' ->
      exists out' h3 data2 mark2 bs2, html_encode os srcs fname uuid number out field ext h2 files = Ok (out', h3, files ++ [dotted uuid number]) /\
        dget (dotted uuid number) out' = Some (TFile bs2) /\ (forall n, n <> dotted uuid number -> dget n out' = dget n out) /\
        In mark2 marks /\ brace_bytes os data2 bs2 /\
        slot1 data (mark ++ b64_encode old) data2 (mark2 ++ b64_encode match new with Some b => b | None => [] end).
Proof.
  intros Hsrc Hbs Hlen Hm Hold Hs Hext Hd1 Hd2 Hout Hnew. set (nb := match new with Some b => b | None => [] end).
  assert (Hnb : B64.bytes nb) by (unfold nb; destruct new as [b|]; [apply Hnew; reflexivity|constructor]).
  unfold html_decode. rewrite Hsrc. replace (max_html <? N.of_nat (length bs)) with false by (unfold max_html; symmetry; apply N.ltb_ge; exact Hlen).
  rewrite (brace_read_bytes _ _ _ _ _ Hbs Hsrc). cbn [bind].
  destruct Hs as (a & b & c & l & t & E & _).
  set (d s := VList (a :: b :: c :: VList [VStr s] :: l) :: t).
  assert (S0 : slot data (mark ++ b64_encode old) (d mark) mark) by (exists a, b, c, [], l, t; auto).
  rewrite (split_payload _ _ _ _ Hm Hold S0). cbn [bind]. rewrite put_file_ok by (left; exact Hd1). cbn [bind].
  eexists. eexists. split; [reflexivity|]. split; [apply dget_dset_same|]. intros srcs h2 E1 E2 E3. rewrite dget_dset_same in E3.
  assert (Hs : slot1 data (mark ++ b64_encode old) data (mark ++ b64_encode old)) by (exists a, b, c, l, t; auto).
  destruct (edited_bytes os data bs _ mark nb Hbs Hs Hm Hnb) as (data1 & data2 & mark2 & bs2 & Hm2 & S1 & S2 & B2 & W).
  assert (D1 : data1 = d (mark ++ b64_encode nb)) by (eapply slot1_det; [exact S1|exists a, b, c, l, t; auto]).
  assert (J : html_join (VList (d mark)) new = Ok (VList data1)).
  { subst data1. unfold nb. destruct new as [b0|]; [apply (join_payload _ _ mark); exists a, b, c, [], l, t; auto|]. cbn [b64_encode]. rewrite app_nil_r. reflexivity. }
  exists (dset (dotted uuid number) (TFile bs2) out), (dset field (VList data1) h2), data2, mark2, bs2.
  split; [|split; [apply dget_dset_same|split; [intros n H; apply dget_dset_other; exact H|split; [exact Hm2|split; [exact B2|exact S2]]]]].
  unfold html_encode, bin_read. rewrite E1, E3, E2. destruct new as [b0|]; cbn [option_map]; change (vtruthy (VList (d mark))) with true; cbv iota; rewrite J; cbn [bind];
    unfold brace_write; rewrite W; rewrite put_file_ok by (left; exact Hout); reflexivity.
Qed.
