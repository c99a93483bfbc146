(** Help texts and HTML templates: lemmas for Props_Payload.v. *)
From Verif Require Import PyBase PyText Utf Cp1251 B64 Brace Spec_Brace BraceMain BraceFile BraceMore Pipeline Spec_Stage ObjCode ObjCodeMain Payload Spec_Payload.
Open Scope list_scope.
Open Scope N_scope.

Lemma extract_ok mark content m : In mark marks -> B64.bytes content ->
  extract_b64 (VList (VStr (mark ++ b64_encode content) :: m)) = Ok (content, VList (VStr mark :: m)).
Proof.
  intros Hm Hb. unfold extract_b64. cbn [vget nth_error bind].
  destruct Hm as [<-|[<-|[<-|[]]]]; cbn [app starts skipn length pp_base64 p_base64 s_data andb N.eqb Pos.eqb];
    rewrite (b64_roundtrip _ Hb); reflexivity.
Qed.
Lemma mark_text mark content : In mark marks -> exists c r, mark ++ b64_encode content = c :: r.
Proof. intros [<-|[<-|[<-|[]]]]; eexists; eexists; reflexivity. Qed.
Lemma split_payload data data0 mark content : In mark marks -> B64.bytes content -> slot data (mark ++ b64_encode content) data0 mark ->
  html_split (VList data) = Ok (Some content, VList data0).
Proof.
  intros Hm Hb (a & b & c & m & l & t & -> & ->). unfold html_split. cbn [vget nth_error bind].
  unfold when_true. cbn [bind vtruthy vget nth_error]. destruct (mark_text mark content Hm) as (d & r & E). rewrite E. cbn [bind vtruthy]. rewrite <- E.
  rewrite (extract_ok mark content m Hm Hb). cbn [bind vset nth_error set_nth]. reflexivity.
Qed.
Lemma split_blank data : slot_blank data -> html_split (VList data) = Ok (None, VList data).
Proof.
  intros (l & t & -> & H). unfold html_split. change (vget (VList (VList l :: t)) 0) with (Ok (VList l)). cbn [bind]. destruct H as [H|(v & E & H)].
  - assert (E : vget (VList l) 3 = Err IndexError) by (unfold vget; rewrite (proj2 (nth_error_None l 3) H); reflexivity). unfold when_true. rewrite E. reflexivity.
  - assert (E3 : vget (VList l) 3 = Ok v) by (unfold vget; rewrite E; reflexivity). unfold when_true. rewrite E3. cbn [bind]. destruct H as [[->| ->]|(x & m & -> & [->| ->])]; reflexivity.
Qed.
Lemma join_payload data data0 mark content : slot data0 mark data (mark ++ b64_encode content) ->
  html_join (VList data0) (Some content) = Ok (VList data).
Proof.
  intros (a & b & c & m & l & t & -> & ->). unfold html_join. cbn [vget nth_error bind vlen length Nat.ltb Nat.leb].
  destruct content as [|x content]; [cbn [b64_encode]; rewrite app_nil_r; reflexivity|].
  cbn [vget nth_error bind vplus vset set_nth]. reflexivity.
Qed.
Lemma join_none data : data <> [] -> (forall t, data <> VNone :: t) -> html_join (VList data) None = Ok (VList data).
Proof. intros H1 H2. destruct data as [|[|s|l] t]; [congruence|destruct (H2 t eq_refl)| |]; reflexivity. Qed.

Lemma brace_read_bytes os data bs (fo : folder) name : brace_bytes os data bs -> dget name fo = Some (TFile bs) -> brace_read fo name = Ok (VList data).
Proof.
  intros (H1 & H2 & H3) E. unfold brace_read. rewrite E. destruct (file_roundtrip os cp1251_decode [] H1 H2) as (bs' & W & R).
  rewrite H3 in W. assert (bs' = bs) as -> by congruence. rewrite R. reflexivity.
Qed.
Lemma brace_write_bytes os data bs (fo : folder) name : brace_bytes os data bs -> dget name fo = None \/ (exists b, dget name fo = Some (TFile b)) ->
  brace_write os (VList data) fo name = Ok (dset name (TFile bs) fo).
Proof.
  intros (H1 & H2 & H3) E. unfold brace_write. rewrite H3. unfold put_file. destruct E as [->|(b & ->)]; reflexivity.
Qed.
Lemma bytes_nonnil os data bs : brace_bytes os data bs -> data <> [] /\ (forall t, data <> VNone :: t) /\ vtruthy (VList data) = true.
Proof.
  intros ((H1 & H2 & _) & _). destruct data as [|v data]; [congruence|]. split; [discriminate|]. split; [|reflexivity].
  intros t E. inversion H2 as [|? ? (l & E2 & _) _]; subst. congruence.
Qed.

Definition file_or_none (e : option tree) : Prop := e = None \/ exists b, e = Some (TFile b).
Lemma put_file_ok name bs (fo : folder) : file_or_none (dget name fo) -> put_file name bs fo = Ok (dset name (TFile bs) fo).
Proof. unfold put_file. intros [->|(b & ->)]; reflexivity. Qed.
Lemma copy_file_ok n bs name (fo : folder) : file_or_none (dget name fo) -> copy_file n bs fo name = Ok (dset name (TFile bs) fo).
Proof. unfold copy_file. intros [->|(b & ->)]; reflexivity. Qed.

Lemma slot_cut data s s' : slot data s data s -> exists data0, slot data s data0 s' /\ slot data0 s' data s.
Proof.
  intros (a & b & c & m & l & t & E1 & E2). exists (VList (a :: b :: c :: VList (VStr s' :: m) :: l) :: t).
  split; do 6 eexists; split; try eassumption; reflexivity.
Qed.

(** the sources keep the HTML file and the copy of a big file, the header keeps the field *)
Lemma help_restored os uuid number fname field ext (src dest out : folder) (h : header) files e content :
  dget (dotted uuid number) src = e -> help_entry os e content -> ext <> s_bin -> dget field h = None ->
  dget (dotted fname ext) dest = None -> dget (dotted fname s_bin) dest = None -> dget (dotted uuid number) out = None ->
  exists dest' h', html_decode src uuid number dest fname field ext h = Ok (dest', h') /\
    dget (dotted fname ext) dest' = option_map TFile content /\
    (forall n, n <> dotted fname ext -> n <> dotted fname s_bin -> dget n dest' = dget n dest) /\
    (forall k, k <> field -> dget k h' = dget k h) /\
    forall (srcs : folder) (h2 : header),
      dget (dotted fname ext) srcs = dget (dotted fname ext) dest' -> dget (dotted fname s_bin) srcs = dget (dotted fname s_bin) dest' ->
      dget field h2 = dget field h' ->
      exists out' h3, html_encode os srcs fname uuid number out field ext h2 files
          = Ok (out', h3, files ++ match e with None => [] | Some _ => [dotted uuid number] end) /\
        dget (dotted uuid number) out' = e /\ (forall n, n <> dotted uuid number -> dget n out' = dget n out) /\
        (forall k, k <> field -> dget k h3 = dget k h2).
Proof.
  intros Hsrc He Hext Hfield Hd1 Hd2 Hout.
  assert (Hne : dotted fname s_bin <> dotted fname ext) by (intros E; apply dotted_inj in E; congruence).
  assert (Hput : forall b, put_file (dotted fname ext) b dest = Ok (dset (dotted fname ext) (TFile b) dest)) by (intros b; apply put_file_ok; left; exact Hd1).
  destruct He as [|bs Hbig|data bs mark content Hbs Hlen Hm Hc s Hs|data bs Hbs Hlen Hs]; unfold html_decode; rewrite Hsrc.
  - exists dest, h. split; [reflexivity|]. split; [exact Hd1|]. split; [reflexivity|]. split; [reflexivity|].
    intros srcs h2 E1 E2 E3. exists out, h2. unfold html_encode, bin_read. rewrite E1, Hd1, E2, Hd2, E3, Hfield, app_nil_r. split; [reflexivity|]. split; [exact Hout|]. split; reflexivity.
  - replace (max_html <? N.of_nat (length bs)) with true by (unfold max_html; symmetry; apply N.ltb_lt; exact Hbig).
    rewrite copy_file_ok by (left; exact Hd2). cbn [bind]. exists (dset (dotted fname s_bin) (TFile bs) dest), h. split; [reflexivity|].
    split; [rewrite dget_dset_other by congruence; exact Hd1|]. split; [intros n H1 H2; apply dget_dset_other; congruence|]. split; [reflexivity|].
    intros srcs h2 E1 E2 E3. exists (dset (dotted uuid number) (TFile bs) out), h2. unfold html_encode, bin_read.
    rewrite E1, dget_dset_other by congruence. rewrite Hd1, E2, dget_dset_same. rewrite copy_file_ok by (left; exact Hout). cbn [bind].
    split; [reflexivity|]. split; [apply dget_dset_same|]. split; [|reflexivity]. intros n H. apply dget_dset_other. exact H.
  - replace (max_html <? N.of_nat (length bs)) with false by (unfold max_html; symmetry; apply N.ltb_ge; exact Hlen).
    rewrite (brace_read_bytes _ _ _ _ _ Hbs Hsrc). cbn [bind]. destruct (slot_cut _ _ mark Hs) as (data0 & S1 & S2).
    rewrite (split_payload _ _ _ _ Hm Hc S1). cbn [bind]. rewrite Hput. cbn [bind]. eexists. eexists. split; [reflexivity|].
    split; [apply dget_dset_same|]. split; [intros n H1 H2; apply dget_dset_other; congruence|]. split; [intros k Hk; apply dget_dset_other; congruence|].
    intros srcs h2 E1 E2 E3. rewrite dget_dset_same in E1, E3. exists (dset (dotted uuid number) (TFile bs) out), (dset field (VList data) h2). unfold html_encode, bin_read.
    rewrite E1, E3. cbn [bind]. replace (vtruthy (VList data0)) with true by (destruct S2 as (? & ? & ? & ? & ? & ? & -> & _); reflexivity).
    rewrite (join_payload _ _ _ _ S2). cbn [bind]. rewrite (brace_write_bytes _ _ _ _ _ Hbs) by (left; exact Hout). cbn [bind].
    split; [reflexivity|]. split; [apply dget_dset_same|]. split; [intros n H; apply dget_dset_other; exact H|intros k Hk; apply dget_dset_other; congruence].
  - replace (max_html <? N.of_nat (length bs)) with false by (unfold max_html; symmetry; apply N.ltb_ge; exact Hlen).
    rewrite (brace_read_bytes _ _ _ _ _ Hbs Hsrc). cbn [bind]. rewrite (split_blank _ Hs). cbn [bind]. eexists. eexists. split; [reflexivity|].
    split; [exact Hd1|]. split; [reflexivity|]. split; [intros k Hk; apply dget_dset_other; congruence|].
    intros srcs h2 E1 E2 E3. rewrite dget_dset_same in E3. exists (dset (dotted uuid number) (TFile bs) out), (dset field (VList data) h2). unfold html_encode, bin_read.
    rewrite E1, Hd1, E2, Hd2, E3. destruct (bytes_nonnil _ _ _ Hbs) as (N1 & N2 & N3). rewrite N3, join_none by assumption. cbn [bind].
    rewrite (brace_write_bytes _ _ _ _ _ Hbs) by (left; exact Hout). cbn [bind].
    split; [reflexivity|]. split; [apply dget_dset_same|]. split; [intros n H; apply dget_dset_other; exact H|intros k Hk; apply dget_dset_other; congruence].
Qed.
