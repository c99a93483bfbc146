(** Pictures and files copied as they are: lemmas for Props_Payload.v. *)
From Verif Require Import PyBase PyText Utf Cp1251 PyB64 B64 Brace Spec_Brace BraceMain BraceFile BraceMore Pipeline Spec_Stage ObjCode ObjCodeMain Payload Spec_Payload PayloadProofs PayloadEdit PayloadTmpl.
Open Scope list_scope.
Open Scope N_scope.

Lemma pic_split data data0 mark content : In mark marks -> B64.bytes content -> picture data (mark ++ b64_encode content) data0 mark ->
  picture_split (VList data) = Ok (Some content, VList data0).
Proof.
  intros Hm Hb (a & b & m & r & l & t & -> & ->). unfold picture_split, when_true. cbn [vget nth_error bind vtruthy].
  destruct (mark_text mark content Hm) as (d & x & E). rewrite E. cbn [bind vtruthy]. rewrite <- E.
  rewrite (extract_ok mark content m Hm Hb). cbn [bind vset nth_error set_nth]. reflexivity.
Qed.
Lemma pic_blank data : picture_blank data -> picture_split (VList data) = Ok (None, VList data).
Proof.
  intros (l & t & -> & v & E & H). unfold picture_split. change (vget (VList (VList l :: t)) 0) with (Ok (VList l)). cbn [bind].
  assert (E3 : vget (VList l) 2 = Ok v) by (unfold vget; rewrite E; reflexivity). unfold when_true. rewrite E3. cbn [bind].
  destruct H as [[->| ->]|(x & m & -> & [[->| ->]|(y & r & -> & [->| ->])])]; reflexivity.
Qed.
Lemma pic_join data data0 mark content : picture data0 mark data (mark ++ b64_encode content) ->
  picture_join (VList data0) (b64_encode content) = Ok (VList data).
Proof. intros (a & b & m & r & l & t & -> & ->). reflexivity. Qed.
Lemma pic_cut data s s' : picture data s data s -> exists data0, picture data s data0 s' /\ picture data0 s' data s.
Proof.
  intros (a & b & m & r & l & t & E1 & E2). exists (VList (a :: b :: VList (VList (VStr s' :: m) :: r) :: l) :: t).
  split; do 6 eexists; split; try eassumption; reflexivity.
Qed.

Lemma picture_restored os alnum uuid fname comment (src dest out : folder) (h : header) files e content :
  dget (dotted uuid s_zero) src = e -> picture_entry os e content -> dget s_info h = None ->
  dget (dotted fname (extension_of alnum comment)) dest = None -> dget (dotted uuid s_zero) out = None ->
  exists dest' h', picture_out alnum src uuid dest fname comment h = Ok (dest', h') /\
    dget (dotted fname (extension_of alnum comment)) dest' = option_map TFile content /\
    (forall n, n <> dotted fname (extension_of alnum comment) -> dget n dest' = dget n dest) /\
    (forall k, k <> s_info -> dget k h' = dget k h) /\
    forall (srcs : folder) (h2 : header), dget (dotted fname (extension_of alnum comment)) srcs = option_map TFile content -> dget s_info h2 = dget s_info h' ->
      exists out' h3, picture_back os alnum srcs fname uuid out comment h2 files = Ok (out', h3, files ++ match e with None => [] | Some _ => [dotted uuid s_zero] end) /\
        dget (dotted uuid s_zero) out' = e /\ (forall n, n <> dotted uuid s_zero -> dget n out' = dget n out) /\ (forall k, k <> s_info -> dget k h3 = dget k h2).
Proof.
  intros Hs He Hh Hd Ho. destruct He as [|data bs mark content Hbs Hm Hc s Hp]; unfold picture_out.
  - assert (R : brace_read src (dotted uuid s_zero) = Err FileNotFoundError) by (unfold brace_read; rewrite Hs; reflexivity). rewrite R. exists dest, h.
    split; [reflexivity|]. split; [exact Hd|]. split; [reflexivity|]. split; [reflexivity|]. intros srcs h2 E1 E2. exists out, h2. unfold picture_back, bin_read. rewrite E1. cbn [option_map].
    rewrite app_nil_r. split; [reflexivity|]. split; [exact Ho|]. split; reflexivity.
  - rewrite (brace_read_bytes _ _ _ _ _ Hbs Hs). destruct (pic_cut _ _ mark Hp) as (data0 & S1 & S2). rewrite (pic_split _ _ _ _ Hm Hc S1). cbn [bind].
    rewrite put_file_ok by (left; exact Hd). cbn [bind wrap]. eexists. eexists. split; [reflexivity|]. split; [apply dget_dset_same|].
    split; [intros n Hn; apply dget_dset_other; exact Hn|]. split; [intros k Hk; apply dget_dset_other; exact Hk|].
    intros srcs h2 E1 E2. rewrite dget_dset_same in E2. exists (dset (dotted uuid s_zero) (TFile bs) out), (dset s_info (VList data) h2). unfold picture_back, bin_read. rewrite E1, E2. cbn [option_map].
    rewrite (pic_join _ _ _ _ S2). cbn [bind]. rewrite (brace_write_bytes _ _ _ _ _ Hbs) by (left; exact Ho). cbn [bind].
    split; [reflexivity|]. split; [apply dget_dset_same|]. split; [intros n Hn; apply dget_dset_other; exact Hn|intros k Hk; apply dget_dset_other; exact Hk].
Qed.

(** ** edited *)
Lemma pic1_canonical s s' data data' : picture1 data s data' s' -> obj_ok [VStr s'] -> canonical data -> canonical data'.
Proof.
  intros (a & b & r & l & t & -> & ->) Ho (H1 & H2 & H3). split; [discriminate|]. split; [|exact H3].
  inversion H2 as [|? ? (r0 & E & Hr) Ht]; subst. injection E as <-. constructor; [|exact Ht]. eexists. split; [reflexivity|].
  inversion Hr as [|? Hn Hf He]; subst. apply o_list; [discriminate|exact Hf|].
  assert (Hin : obj_ok (VList [VStr s'] :: r)).
  { assert (Hmid : obj_ok (VList [VStr s] :: r)).
    { clear - He. inversion He as [| | |? ? ? ? H| |]; subst; try (inversion H); subst.
      all: repeat match goal with H : elems_ok _ (_ :: _) |- _ => inversion H; subst; clear H end; assumption. }
    inversion Hmid as [|? _ Hf2 He2]; subst. apply o_list; [discriminate|exact I|]. apply (elems_replace []) with (o := [VStr s]); assumption. }
  apply (elems_replace [a; b]) with (o := VList [VStr s] :: r); assumption.
Qed.
Lemma pic1_scalar s s' data data' : picture1 data s data' s' -> Forall scalar s' -> Forall scalar (concat (flat_map leaves data)) -> Forall scalar (concat (flat_map leaves data')).
Proof.
  intros (a & b & r & l & t & -> & ->) Hs H. rewrite Forall_forall in *. intros x Hx. apply in_concat in Hx. destruct Hx as (y & Hy & Hx).
  assert (K : forall z, In z (flat_map leaves (VList (a :: b :: VList (VList [VStr s] :: r) :: l) :: t)) -> forall w, In w z -> scalar w).
  { intros z Hz w Hw. apply H. apply in_concat. exists z. auto. }
  cbn [flat_map leaves app] in *. rewrite !in_app_iff in Hy. cbn [In] in Hy. rewrite !in_app_iff in Hy.
  destruct (str_eq_dec y s') as [->|Hne]; [apply Hs, Hx|]. apply (K y); [|exact Hx].
  rewrite !in_app_iff. cbn [In]. rewrite !in_app_iff. intuition congruence.
Qed.
Lemma pic1_write os data data' s s' : picture1 data s data' s' -> (forall nl, enc_str nl s = enc_str nl s') -> brace_file_write os data [] = brace_file_write os data' [].
Proof.
  intros (a & b & r & l & t & -> & ->) E. unfold brace_file_write.
  assert (Er : encode_root_object (VList (a :: b :: VList (VList [VStr s] :: r) :: l) :: t) = encode_root_object (VList (a :: b :: VList (VList [VStr s'] :: r) :: l) :: t)); [|rewrite Er; reflexivity].
  unfold encode_root_object. cbn [enc_roots_go enc_root1].
  assert (Eo : enc_obj CRLF (a :: b :: VList (VList [VStr s] :: r) :: l) = enc_obj CRLF (a :: b :: VList (VList [VStr s'] :: r) :: l)); [|rewrite Eo; reflexivity].
  unfold enc_obj. rewrite !enc_elems_cons, !enc_val_list, !enc_elems_cons, !enc_val_list, !enc_elems_cons. cbn [enc_val]. rewrite (E CRLF). reflexivity.
Qed.
Lemma pic1_edited os data bs s mark b : brace_bytes os data bs -> picture1 data s data s -> In mark marks -> B64.bytes b ->
  exists data1 data2 mark2 bs2, In mark2 marks /\ picture1 data s data1 (mark ++ b64_encode b) /\ picture1 data s data2 (mark2 ++ b64_encode b) /\
    brace_bytes os data2 bs2 /\ brace_file_write os data1 [] = (Ok tt, bs2).
Proof.
  intros (H1 & H2 & H3) (a & b0 & r & l & t & E & _) Hm Hb. destruct (payload_regular mark b Hm Hb) as (mark2 & Hm2 & Ho & Ee).
  set (d s := VList (a :: b0 :: VList (VList [VStr s] :: r) :: l) :: t).
  assert (S1 : forall x, picture1 data s (d x) x) by (intros x; do 5 eexists; split; [exact E|reflexivity]).
  assert (S2 : picture1 (d (mark ++ b64_encode b)) (mark ++ b64_encode b) (d (mark2 ++ b64_encode b)) (mark2 ++ b64_encode b)) by (do 5 eexists; split; reflexivity).
  assert (C : canonical (d (mark2 ++ b64_encode b))) by (eapply pic1_canonical; [apply S1|exact Ho|exact H1]).
  assert (Sc : Forall scalar (concat (flat_map leaves (d (mark2 ++ b64_encode b))))) by (eapply pic1_scalar; [apply S1|apply b64_scalar; assumption|exact H2]).
  destruct (file_roundtrip os cp1251_decode [] C Sc) as (bs2 & W & _).
  exists (d (mark ++ b64_encode b)), (d (mark2 ++ b64_encode b)), mark2, bs2. split; [exact Hm2|]. split; [apply S1|]. split; [apply S1|]. split; [split; [exact C|split; [exact Sc|exact W]]|].
  rewrite (pic1_write os _ _ _ _ S2 Ee). exact W.
Qed.
Lemma pic1_det data s d1 d2 x : picture1 data s d1 x -> picture1 data s d2 x -> d1 = d2.
Proof. intros (a & b & r & l & t & E1 & E2) (a' & b' & r' & l' & t' & E1' & E2'). subst. congruence. Qed.
Lemma pic1_pic data s data' s' : picture1 data s data' s' -> picture data s data' s'.
Proof. intros (a & b & r & l & t & E1 & E2). exists a, b, [], r, l, t. auto. Qed.
Lemma pic1_refl data s data' s' : picture1 data s data' s' -> picture1 data' s' data' s'.
Proof. intros (a & b & r & l & t & E1 & E2). exists a, b, r, l, t. auto. Qed.

Lemma picture_edited os alnum uuid fname comment (src dest out : folder) (h : header) files data bs mark old new :
  dget (dotted uuid s_zero) src = Some (TFile bs) -> brace_bytes os data bs -> In mark marks -> B64.bytes old -> B64.bytes new ->
  picture1 data (mark ++ b64_encode old) data (mark ++ b64_encode old) ->
  dget (dotted fname (extension_of alnum comment)) dest = None -> dget (dotted uuid s_zero) out = None ->
  exists dest' h', picture_out alnum src uuid dest fname comment h = Ok (dest', h') /\
    dget (dotted fname (extension_of alnum comment)) dest' = Some (TFile old) /\
    forall (srcs : folder) (h2 : header), dget (dotted fname (extension_of alnum comment)) srcs = Some (TFile new) -> dget s_info h2 = dget s_info h' ->
      exists out' h3 data2 mark2 bs2, picture_back os alnum srcs fname uuid out comment h2 files = Ok (out', h3, files ++ [dotted uuid s_zero]) /\
        dget (dotted uuid s_zero) out' = Some (TFile bs2) /\ (forall n, n <> dotted uuid s_zero -> dget n out' = dget n out) /\
        In mark2 marks /\ brace_bytes os data2 bs2 /\ picture1 data (mark ++ b64_encode old) data2 (mark2 ++ b64_encode new).
Proof.
  intros Hs Hbs Hm Hold Hnew Hp Hd Ho. unfold picture_out. rewrite (brace_read_bytes _ _ _ _ _ Hbs Hs).
  destruct Hp as (a & b & r & l & t & E & _). set (d s := VList (a :: b :: VList (VList [VStr s] :: r) :: l) :: t).
  assert (S0 : picture data (mark ++ b64_encode old) (d mark) mark) by (exists a, b, [], r, l, t; auto).
  rewrite (pic_split _ _ _ _ Hm Hold S0). cbn [bind]. rewrite put_file_ok by (left; exact Hd). cbn [bind wrap].
  eexists. eexists. split; [reflexivity|]. split; [apply dget_dset_same|]. intros srcs h2 E1 E2. rewrite dget_dset_same in E2.
  assert (Hp : picture1 data (mark ++ b64_encode old) data (mark ++ b64_encode old)) by (exists a, b, r, l, t; auto).
  destruct (pic1_edited os data bs _ mark new Hbs Hp Hm Hnew) as (data1 & data2 & mark2 & bs2 & Hm2 & S1 & S2 & B2 & W).
  assert (D1 : data1 = d (mark ++ b64_encode new)) by (eapply pic1_det; [exact S1|exists a, b, r, l, t; auto]).
  exists (dset (dotted uuid s_zero) (TFile bs2) out), (dset s_info (VList data1) h2), data2, mark2, bs2.
  split; [|split; [apply dget_dset_same|split; [intros n H; apply dget_dset_other; exact H|split; [exact Hm2|split; [exact B2|exact S2]]]]].
  unfold picture_back, bin_read. rewrite E1, E2. assert (J : picture_join (VList (d mark)) (b64_encode new) = Ok (VList data1)) by (subst data1; reflexivity).
  rewrite J. cbn [bind]. unfold brace_write. rewrite W. rewrite put_file_ok by (left; exact Ho). reflexivity.
Qed.

(** ** the splash picture of a configuration *)
Lemma image_restored os uuid number elem field (src dest out : folder) (h : header) files e content :
  dget (dotted uuid number) src = e ->
  (picture_entry os e content \/ (content = None /\ exists data bs, e = Some (TFile bs) /\ brace_bytes os data bs /\ picture_blank data)) -> dget field h = None ->
  dget elem dest = None -> dget (dotted uuid number) out = None ->
  exists dest' h', image_out src uuid number dest elem field h = Ok (dest', h') /\
    dget elem dest' = option_map TFile content /\ (forall n, n <> elem -> dget n dest' = dget n dest) /\ (forall k, k <> field -> dget k h' = dget k h) /\
    forall (srcs : folder) (h2 : header), dget elem srcs = option_map TFile content -> dget field h2 = dget field h' ->
      exists out' h3, image_back os srcs uuid number out elem field h2 files = Ok (out', h3, files ++ match e with None => [] | Some _ => [dotted uuid number] end) /\
        dget (dotted uuid number) out' = e /\ (forall n, n <> dotted uuid number -> dget n out' = dget n out) /\ (forall k, k <> field -> dget k h3 = dget k h2).
Proof.
  intros Hs He Hh Hd Ho. destruct He as [He|(-> & data & bs & -> & Hbs & Hbl)].
  - destruct He as [|data bs mark content Hbs Hm Hc s Hp]; unfold image_out.
    + assert (R : brace_read src (dotted uuid number) = Err FileNotFoundError) by (unfold brace_read; rewrite Hs; reflexivity). rewrite R. exists dest, h.
      split; [reflexivity|]. split; [exact Hd|]. split; [reflexivity|]. split; [reflexivity|]. intros srcs h2 E1 E2. exists out, h2. unfold image_back, bin_read. rewrite E1, E2, Hh. cbn [option_map bind].
      rewrite app_nil_r. split; [reflexivity|]. split; [exact Ho|]. split; reflexivity.
    + rewrite (brace_read_bytes _ _ _ _ _ Hbs Hs). destruct (pic_cut _ _ mark Hp) as (data0 & S1 & S2). rewrite (pic_split _ _ _ _ Hm Hc S1). cbn [bind].
      rewrite put_file_ok by (left; exact Hd). cbn [bind]. eexists. eexists. split; [reflexivity|]. split; [apply dget_dset_same|].
      split; [intros n Hn; apply dget_dset_other; exact Hn|]. split; [intros k Hk; apply dget_dset_other; exact Hk|].
      intros srcs h2 E1 E2. rewrite dget_dset_same in E2. exists (dset (dotted uuid number) (TFile bs) out), (dset field (VList data) h2). unfold image_back, bin_read. rewrite E1, E2. cbn [option_map bind].
      assert (T : vtruthy (VList data0) = true /\ exists n, (r <- vget (VList data0) 0 ;; vlen r) = Ok n /\ Nat.ltb 1 n = true).
      { destruct S2 as (a & b & m & r & l & t & -> & _). split; [reflexivity|]. eexists. split; reflexivity. }
      destruct T as (T1 & n & T2 & T3). rewrite T1. destruct (vget (VList data0) 0) as [r|]; [|discriminate]. cbn [bind] in *. rewrite T2. cbn [bind]. rewrite T3. cbn [andb].
      assert (J : (if negb (Nat.eqb (length content) 0) then picture_join (VList data0) (b64_encode content) else Ok (VList data0)) = Ok (VList data)).
      { destruct content as [|c content]; [|cbn [length Nat.eqb negb]; apply (pic_join _ _ mark); exact S2].
        destruct S2 as (a & b & m & r0 & l & t & -> & ->). replace s with mark; [reflexivity|]. unfold s. change (b64_encode []) with (@nil N). symmetry. apply app_nil_r. }
      rewrite J. cbn [bind]. rewrite (brace_write_bytes _ _ _ _ _ Hbs) by (left; exact Ho). cbn [bind].
      split; [reflexivity|]. split; [apply dget_dset_same|]. split; [intros m Hn; apply dget_dset_other; exact Hn|intros k Hk; apply dget_dset_other; exact Hk].
  - unfold image_out. rewrite (brace_read_bytes _ _ _ _ _ Hbs Hs), (pic_blank _ Hbl). cbn [bind]. eexists. eexists. split; [reflexivity|]. split; [exact Hd|]. split; [reflexivity|].
    split; [intros k Hk; apply dget_dset_other; exact Hk|]. intros srcs h2 E1 E2. rewrite dget_dset_same in E2.
    exists (dset (dotted uuid number) (TFile bs) out), (dset field (VList data) h2). unfold image_back, bin_read. rewrite E1, E2. cbn [option_map bind].
    destruct (bytes_nonnil _ _ _ Hbs) as (_ & _ & T). rewrite T. destruct Hbl as (l & t & -> & _). cbn [vget nth_error bind vlen length Nat.eqb negb]. rewrite andb_false_r. cbn [bind].
    rewrite (brace_write_bytes _ _ _ _ _ Hbs) by (left; exact Ho). cbn [bind]. split; [reflexivity|]. split; [apply dget_dset_same|]. split; [intros m Hn; apply dget_dset_other; exact Hn|intros k Hk; apply dget_dset_other; exact Hk].
Qed.

(** ** files and folders copied as they are *)
Definition raw_pair (out_ : folder -> list N -> folder -> list N -> res folder)
    (back : folder -> list N -> folder -> list N -> list (list N) -> res (folder * list (list N))) : Prop :=
  forall sname dname (src dest out : folder) files e, dget sname src = e -> (e = None \/ exists bs, e = Some (TFile bs)) -> dget dname dest = None -> dget sname out = None ->
  exists dest', out_ src sname dest dname = Ok dest' /\ dget dname dest' = e /\ (forall n, n <> dname -> dget n dest' = dget n dest) /\
    forall srcs, dget dname srcs = dget dname dest' ->
      exists out', back srcs dname out sname files = Ok (out', files ++ match e with None => [] | Some _ => [sname] end) /\
        dget sname out' = e /\ (forall n, n <> sname -> dget n out' = dget n out).
Lemma copied_restored : raw_pair copy_out copy_back.
Proof.
  intros sname dname src dest out files e Hs He Hd Ho. unfold copy_out. rewrite Hs. destruct He as [->|(bs & ->)].
  - exists dest. split; [reflexivity|]. split; [exact Hd|]. split; [reflexivity|]. intros srcs E. exists out. unfold copy_back. rewrite E, Hd, app_nil_r. split; [reflexivity|]. split; [exact Ho|reflexivity].
  - rewrite copy_file_ok by (left; exact Hd). eexists. split; [reflexivity|]. split; [apply dget_dset_same|]. split; [intros n Hn; apply dget_dset_other; exact Hn|].
    intros srcs E. rewrite dget_dset_same in E. exists (dset sname (TFile bs) out). unfold copy_back. rewrite E, copy_file_ok by (left; exact Ho). split; [reflexivity|]. split; [apply dget_dset_same|].
    intros n Hn. apply dget_dset_other. exact Hn.
Qed.
Lemma binary_restored : raw_pair bin_out bin_back.
Proof.
  intros sname dname src dest out files e Hs He Hd Ho. unfold bin_out, bin_read. rewrite Hs. destruct He as [->|(bs & ->)].
  - exists dest. split; [reflexivity|]. split; [exact Hd|]. split; [reflexivity|]. intros srcs E. exists out. unfold bin_back, bin_read. rewrite E, Hd, app_nil_r. split; [reflexivity|]. split; [exact Ho|reflexivity].
  - rewrite put_file_ok by (left; exact Hd). eexists. split; [reflexivity|]. split; [apply dget_dset_same|]. split; [intros n Hn; apply dget_dset_other; exact Hn|].
    intros srcs E. rewrite dget_dset_same in E. exists (dset sname (TFile bs) out). unfold bin_back, bin_read. rewrite E, put_file_ok by (left; exact Ho). split; [reflexivity|]. split; [apply dget_dset_same|].
    intros n Hn. apply dget_dset_other. exact Hn.
Qed.
Lemma tree_restored sname name cls (src dest out : folder) files e : dget sname src = e -> (e = None \/ exists fo, e = Some (TDir fo)) -> dget name dest = None -> dget sname out = None ->
  exists dest', tree_out src sname dest name cls = Ok dest' /\ (forall n, n <> name -> dget n dest' = dget n dest) /\
    forall srcs, dget name srcs = dget name dest' ->
      exists out', tree_back srcs name cls out sname files = Ok (out', files ++ match e with None => [] | Some _ => [sname] end) /\
        dget sname out' = e /\ (forall n, n <> sname -> dget n out' = dget n out).
Proof.
  intros Hs He Hd Ho. unfold tree_out. rewrite Hs. destruct He as [->|(fo & ->)].
  - exists dest. split; [reflexivity|]. split; [reflexivity|]. intros srcs E. exists out. unfold tree_back. rewrite E, Hd, app_nil_r. split; [reflexivity|]. split; [exact Ho|reflexivity].
  - rewrite Hd. eexists. split; [reflexivity|]. split; [intros n Hn; apply dget_dset_other; exact Hn|]. intros srcs E. rewrite dget_dset_same in E.
    exists (dset sname (TDir fo) out). unfold tree_back. rewrite E. cbn [dget]. rewrite str_eqb_refl. rewrite Ho. split; [reflexivity|]. split; [apply dget_dset_same|].
    intros n Hn. apply dget_dset_other. exact Hn.
Qed.
