(** The cycle of all modules of an object (ObjCode.v). *)
From Coq Require Import String.
From Verif Require Import PyBase PyText Utf Cp1251 Codecs Brace Spec_Brace BraceMain BraceFile BraceMore Pipeline Directives Spec_Misc MiscProofs Spec_Stage ObjCode Spec_Obj ObjCodeProofs.
Open Scope list_scope.
Open Scope N_scope.

Lemma module_cycle os dirs bs : module_file os dirs bs -> exists c e c2, cycle os dirs bs c e c2.
Proof. intros [H|(t & H1 & H2 & H3)]; [do 3 eexists; apply cycle_bin; exact H|eapply cycle_text; eassumption]. Qed.

(** ** the names involved *)
Lemma k_info_inj a b : k_info a = k_info b -> a = b.
Proof. apply app_inv_head. Qed.
Lemma k_enc_inj a b : k_enc a = k_enc b -> a = b.
Proof. apply app_inv_head. Qed.
Lemma k_info_enc a b : k_info a <> k_enc b.
Proof. unfold k_info, k_enc, p_info, p_enc. cbn [app]. intros H. discriminate H. Qed.
Lemma dotted_inj a b c : dotted a b = dotted a c -> b = c.
Proof. unfold dotted. intros H. apply app_inv_head in H. injection H as H. exact H. Qed.
Definition nodot (e : list N) : Prop := ~ In 46 e.
Lemma last_dot (a : list N) : forall b x y, nodot x -> nodot y -> a ++ 46 :: x = b ++ 46 :: y -> a = b /\ x = y.
Proof.
  induction a as [|c a IH]; intros b x y Hx Hy H; destruct b as [|d b]; cbn [app] in H.
  - injection H as ->. auto.
  - exfalso. injection H as <- H. apply Hx. rewrite H. apply in_or_app. right. left. reflexivity.
  - exfalso. injection H as -> H. apply Hy. rewrite <- H. apply in_or_app. right. left. reflexivity.
  - injection H as -> H. destruct (IH _ _ _ Hx Hy H) as [-> ->]. auto.
Qed.
Lemma source_inj f n1 e1 n2 e2 : nodot e1 -> nodot e2 -> source_name f n1 e1 = source_name f n2 e2 -> n1 = n2 /\ e1 = e2.
Proof.
  intros H1 H2 H. unfold source_name in H. unfold dotted at 1 3 in H. cbn [app] in H. destruct (last_dot _ _ _ _ H1 H2 H) as [H3 ->].
  apply dotted_inj in H3. auto.
Qed.
Lemma nodot_b e : forallb (fun c => negb (c =? 46)) e = true -> nodot e.
Proof. intros H Hi. rewrite forallb_forall in H. specialize (H _ Hi). discriminate. Qed.
Lemma nodot_bsl : nodot s_bsl. Proof. apply nodot_b. reflexivity. Qed.
Lemma nodot_encrypted e : is_encrypted e = true -> nodot e.
Proof.
  unfold is_encrypted, encrypted_types. cbn [existsb]. rewrite !orb_true_iff, !str_eqb_spec.
  intros [->|[->|[->|H]]]; [apply nodot_b; reflexivity ..|discriminate].
Qed.
Lemma bsl_not_encrypted e : is_encrypted e = true -> e <> s_bsl.
Proof. intros H ->. discriminate. Qed.

(** ** one present module *)
Record item := mkitem { i_name : list N; i_suffix : list N; i_info : val; i_code : code; i_enc : list N; i_code2 : code; i_tree : tree }.
Definition src_ext (it : item) : list N := if is_encrypted (i_enc it) then i_enc it else s_bsl.
(** the bytes stored among the sources *)
Definition mid (os : platform) (it : item) : Prop :=
  (is_encrypted (i_enc it) = true /\ exists bs, i_code it = CBin bs /\ i_code2 it = CBin bs /\ bs <> []) \/
  (is_encrypted (i_enc it) = false /\ exists t t2 bsl, i_code it = CText t /\ i_code2 it = CText t2 /\
     text_store os e_utf8 t = Ok bsl /\ text_load e_utf8sig bsl = Ok t2 /\ (t = [] -> t2 = [])).
Definition hdr_of (it : item) (h : header) : Prop := dget (k_info (i_name it)) h = Some (i_info it) /\ dget (k_enc (i_name it)) h = Some (VStr (i_enc it)).
Definition item_ok (os : platform) (dirs : bool) (uuid : list N) (src : folder) (it : item) : Prop :=
  (forall h codes, decode_one uuid src (i_name it) (i_suffix it) dirs h codes =
     Ok (dset (k_enc (i_name it)) (VStr (i_enc it)) (dset (k_info (i_name it)) (i_info it) h), dset (i_name it) (i_code it) codes)) /\
  vtruthy (i_info it) = true /\ mid os it /\
  same_entry (dget (dotted uuid (i_suffix it)) src) (Some (i_tree it)) /\
  (forall (h : header) (dest : folder), hdr_of it h -> dget (dotted uuid (i_suffix it)) dest = None ->
     encode_file os uuid (i_name it) (i_suffix it) (i_code2 it) h dirs dest = Ok (dset (dotted uuid (i_suffix it)) (i_tree it) dest)).

Lemma cycle_mid os dirs bs c e c2 n s i tr : cycle os dirs bs c e c2 -> mid os (mkitem n s i c e c2 tr).
Proof.
  intros [_ [(H & -> & -> & Hn)|(H & t & t2 & bsl & -> & -> & H1 & H2 & H3 & _)]].
  - left. cbn. split; [exact H|]. exists bs. auto.
  - right. cbn. split; [exact H|]. exists t, t2, bsl. auto.
Qed.
(** writing the module file at the end *)
Lemma cycle_write os dirs bs c e c2 : cycle os dirs bs c e c2 -> forall (dest : folder) name, dget name dest = None ->
  (if is_encrypted e then bin_write c2 dest name else write_raw_code os c2 dest name e dirs) = Ok (dset name (TFile bs) dest).
Proof.
  intros [_ [(H & -> & -> & Hn)|(H & t & t2 & bsl & -> & -> & H1 & H2 & H3 & H4)]] dest name Hd; rewrite H.
  - unfold bin_write, put_file. rewrite Hd. reflexivity.
  - unfold write_raw_code, txt_write, put_file. unfold redir in H4. destruct dirs; rewrite H4, Hd; reflexivity.
Qed.

Lemma item_exists os dirs uuid src n s tr : dget (dotted uuid s) src = Some tr -> module_entry os dirs (Some tr) ->
  exists it, i_name it = n /\ i_suffix it = s /\ item_ok os dirs uuid src it.
Proof.
  intros Hg Hm. destruct tr as [bs|fo].
  - cbn [module_entry] in Hm. destruct (module_cycle _ _ _ Hm) as (c & e & c2 & Cy).
    exists (mkitem n s (VStr s_file) c e c2 (TFile bs)). split; [reflexivity|]. split; [reflexivity|].
    split; [|split; [reflexivity|split; [eapply cycle_mid; eassumption|split]]]; cbn [i_name i_suffix i_info i_code i_enc i_code2 i_tree].
    + intros h codes. unfold decode_one. rewrite Hg. rewrite (cy_read _ _ _ _ _ _ Cy _ _ Hg). reflexivity.
    + rewrite Hg. reflexivity.
    + intros h dest [Hi He] Hd. unfold encode_file, enc_of. cbn [i_name i_info i_enc] in Hi, He. rewrite He, Hi. cbn [bind].
      rewrite str_eqb_refl. apply (cycle_write _ _ _ _ _ _ Cy). exact Hd.
  - cbn [module_entry] in Hm. destruct Hm as (ibs & bs & (data & Hc & Hsc & Hw) & Hm & Gi & Gt & Go).
    destruct (file_roundtrip os cp1251_decode [] Hc Hsc) as (ibs' & Hw' & Hr). rewrite Hw in Hw'. injection Hw' as <-.
    destruct (module_cycle _ _ _ Hm) as (c & e & c2 & Cy).
    exists (mkitem n s (VList data) c e c2 (TDir [(s_info, TFile ibs); (s_text, TFile bs)])). split; [reflexivity|]. split; [reflexivity|].
    split; [|split; [|split; [eapply cycle_mid; eassumption|split]]]; cbn [i_name i_suffix i_info i_code i_enc i_code2 i_tree].
    + intros h codes. unfold decode_one. rewrite Hg. unfold brace_read. change s_info with f_info. rewrite Gi, Hr. cbn [bind].
      rewrite (cy_read _ _ _ _ _ _ Cy fo s_text Gt). reflexivity.
    + cbn [vtruthy]. destruct data; [destruct Hc as [Hc _]; congruence|reflexivity].
    + rewrite Hg. cbn [same_entry]. intros x. cbn [dget].
      destruct (str_eqb x s_info) eqn:E1; [apply str_eqb_spec in E1; subst x; exact Gi|].
      destruct (str_eqb x s_text) eqn:E2; [apply str_eqb_spec in E2; subst x; exact Gt|].
      apply str_eqb_neq in E1, E2. apply Go; assumption.
    + intros h dest [Hi He] Hd. unfold encode_file, enc_of. cbn [i_name i_info i_enc] in Hi, He. rewrite He, Hi. cbn [bind].
      rewrite Hd. unfold brace_write. rewrite Hw. unfold put_file at 1. cbn [dget dset bind].
      rewrite (cycle_write _ _ _ _ _ _ Cy) by reflexivity. cbn [bind]. reflexivity.
Qed.

(** ** all the modules *)
Section All.
Variables (os : platform) (dirs : bool) (uuid fname : list N) (src : folder).
(** the present modules of [ext], in order *)
Inductive present : list (list N * list N) -> list item -> Prop :=
| pr_nil : present [] []
| pr_skip n s ext its : dget (dotted uuid s) src = None -> present ext its -> present ((n, s) :: ext) its
| pr_item n s ext its it : dget (dotted uuid s) src <> None -> i_name it = n -> i_suffix it = s -> item_ok os dirs uuid src it -> present ext its -> present ((n, s) :: ext) (it :: its).

Lemma present_exists ext : (forall n s, In (n, s) ext -> module_entry os dirs (dget (dotted uuid s) src)) -> exists its, present ext its.
Proof.
  induction ext as [|[n s] ext IH]; intros H; [exists []; constructor|].
  destruct IH as [its P]; [intros n' s' Hin; apply (H n'); right; exact Hin|].
  specialize (H n s (or_introl eq_refl)). destruct (dget (dotted uuid s) src) as [tr|] eqn:E.
  - destruct (item_exists os dirs uuid src n s tr E H) as (it & E1 & E2 & Ok). exists (it :: its). apply pr_item; try assumption. congruence.
  - exists its. apply pr_skip; assumption.
Qed.
Lemma present_in ext its : present ext its -> forall it, In it its -> In (i_name it, i_suffix it) ext.
Proof. induction 1; intros j Hj; [destruct Hj|right; auto|]. destruct Hj as [<-|Hj]; [left; congruence|right; auto]. Qed.
Lemma present_name ext its : present ext its -> forall n, In n (map i_name its) -> In n (map fst ext).
Proof. intros P n Hn. rewrite in_map_iff in Hn. destruct Hn as (it & <- & Hi). apply (present_in _ _ P) in Hi. apply (in_map fst) in Hi. exact Hi. Qed.
Lemma present_suffix ext its : present ext its -> forall n, In n (map i_suffix its) -> In n (map snd ext).
Proof. intros P n Hn. rewrite in_map_iff in Hn. destruct Hn as (it & <- & Hi). apply (present_in _ _ P) in Hi. apply (in_map snd) in Hi. exact Hi. Qed.
Lemma present_nodup ext its : present ext its -> NoDup (map fst ext) -> NoDup (map i_name its).
Proof.
  induction 1 as [|n s ext its Hg P IH|n s ext its it Hg E1 E2 Hok P IH]; intros Hn; cbn [map fst] in *; [constructor|inversion Hn; subst; apply IH; assumption|].
  inversion Hn as [|x l Hni Hn2]; subst. constructor; [|apply IH; exact Hn2]. intros Hi. apply Hni. apply (present_name _ _ P). exact Hi.
Qed.
Lemma present_nodup2 ext its : present ext its -> NoDup (map snd ext) -> NoDup (map i_suffix its).
Proof.
  induction 1 as [|n s ext its Hg P IH|n s ext its it Hg E1 E2 Hok P IH]; intros Hn; cbn [map snd] in *; [constructor|inversion Hn; subst; apply IH; assumption|].
  inversion Hn as [|x l Hni Hn2]; subst. constructor; [|apply IH; exact Hn2]. intros Hi. apply Hni. apply (present_suffix _ _ P). exact Hi.
Qed.
Lemma present_ok ext its : present ext its -> Forall (item_ok os dirs uuid src) its.
Proof. induction 1; [constructor|assumption|constructor; assumption]. Qed.

(** decode *)
Definition hdr_step (h : header) (it : item) : header := dset (k_enc (i_name it)) (VStr (i_enc it)) (dset (k_info (i_name it)) (i_info it) h).
Definition codes1 (its : list item) : list (list N * code) := map (fun it => (i_name it, i_code it)) its.
Definition codes2 (its : list item) : list (list N * code) := map (fun it => (i_name it, i_code2 it)) its.
Lemma decode_all ext its : present ext its -> NoDup (map fst ext) -> forall h codes, (forall n, In n (map fst ext) -> dget n codes = None) ->
  decode_code uuid src ext dirs h codes = Ok (fold_left hdr_step its h, codes ++ codes1 its).
Proof.
  induction 1 as [|n s ext its Hg P IH|n s ext its it Hg E1 E2 Hok P IH]; intros Hn h codes Hc; cbn [decode_code fold_left codes1 map].
  - rewrite app_nil_r. reflexivity.
  - rewrite (Hc n) by (left; reflexivity). unfold decode_one. rewrite Hg. cbn [bind]. inversion Hn as [|x l Hni Hn2]; subst. apply IH; [exact Hn2|].
    intros m Hm. apply Hc. right. exact Hm.
  - rewrite (Hc n) by (left; reflexivity). subst n s. destruct Hok as (Hd & _). rewrite Hd. cbn [bind]. inversion Hn as [|x l Hni Hn2]; subst.
    assert (F : dset (i_name it) (i_code it) codes = codes ++ [(i_name it, i_code it)]).
    { apply dset_fresh. apply dget_none. apply Hc. left. reflexivity. }
    rewrite F. rewrite IH; [|exact Hn2|].
    + rewrite <- app_assoc. reflexivity.
    + intros m Hm. rewrite <- F, dget_dset_other; [apply Hc; right; exact Hm|]. intros ->. apply Hni. exact Hm.
Qed.
Lemma hdr_step_other k its : forall h, (forall it, In it its -> k <> k_info (i_name it) /\ k <> k_enc (i_name it)) -> dget k (fold_left hdr_step its h) = dget k h.
Proof.
  induction its as [|it its IH]; intros h H; cbn [fold_left]; [reflexivity|]. rewrite IH by (intros j Hj; apply H; right; exact Hj).
  destruct (H it (or_introl eq_refl)) as [H1 H2]. unfold hdr_step. rewrite !dget_dset_other by assumption. reflexivity.
Qed.
Lemma hdr_all its : NoDup (map i_name its) -> forall h it, In it its -> hdr_of it (fold_left hdr_step its h).
Proof.
  induction its as [|a its IH]; intros Hn h it Hi; [destruct Hi|]. cbn [map] in Hn. inversion Hn as [|x l Hni Hn2]; subst. cbn [fold_left].
  destruct Hi as [<-|Hi]; [|apply IH; assumption].
  assert (Ho : forall j, In j its -> i_name a <> i_name j) by (intros j Hj E; apply Hni; rewrite E; apply in_map; exact Hj).
  split; rewrite hdr_step_other.
  - unfold hdr_step. rewrite dget_dset_other by apply k_info_enc. apply dget_dset_same.
  - intros j Hj. split; [intros E; apply k_info_inj in E; exact (Ho j Hj E)|apply k_info_enc].
  - unfold hdr_step. apply dget_dset_same.
  - intros j Hj. split; [intros E; symmetry in E; apply k_info_enc in E; exact E|intros E; apply k_enc_inj in E; exact (Ho j Hj E)].
Qed.

(** write the sources *)
Definition stored (it : item) (srcs : folder) : Prop :=
  (has_code (i_code it) = true /\ exists bs, dget (source_name fname (i_name it) (src_ext it)) srcs = Some (TFile bs) /\
     match i_code2 it with CBin b => bs = b | CText t => text_load e_utf8sig bs = Ok t | CNone => False end) \/
  (has_code (i_code it) = false /\ i_code2 it = CText [] /\ dget (source_name fname (i_name it) (src_ext it)) srcs = None).
Lemma nodot_src it : nodot (src_ext it).
Proof. unfold src_ext. destruct (is_encrypted (i_enc it)) eqn:E; [apply nodot_encrypted; exact E|apply nodot_bsl]. Qed.
Lemma enc_encrypted_some h it : hdr_of it h -> enc_encrypted (enc_of h (i_name it)) = if is_encrypted (i_enc it) then Some (i_enc it) else None.
Proof. intros [_ He]. unfold enc_of, enc_encrypted. rewrite He. reflexivity. Qed.
Lemma write_all its h : Forall (mid os) its -> NoDup (map i_name its) -> (forall it, In it its -> hdr_of it h) ->
  forall dest : folder, (forall it, In it its -> dget (source_name fname (i_name it) (src_ext it)) dest = None) ->
  exists srcs, write_decode_code os h (codes1 its) fname dest = Ok srcs /\ (forall it, In it its -> stored it srcs) /\
    forall x, (forall it, In it its -> x <> source_name fname (i_name it) (src_ext it)) -> dget x srcs = dget x dest.
Proof.
  induction its as [|it its IH]; intros Hm Hn Hh dest Hd; cbn [codes1 map write_decode_code].
  - exists dest. split; [reflexivity|]. split; [intros ? []|reflexivity].
  - inversion Hm as [|? ? M Hm2]; subst. inversion Hn as [|? ? Hni Hn2]; subst.
    assert (Ho : forall j, In j its -> source_name fname (i_name j) (src_ext j) <> source_name fname (i_name it) (src_ext it)).
    { intros j Hj E. apply source_inj in E; [|apply nodot_src ..]. destruct E as [E _]. apply Hni. rewrite <- E. apply in_map. exact Hj. }
    assert (S : exists d1, (if has_code (i_code it) then
        match enc_encrypted (enc_of h (i_name it)) with
        | Some e => bin_write (i_code it) dest (source_name fname (i_name it) e)
        | None => txt_write os (i_code it) dest (source_name fname (i_name it) s_bsl) e_utf8
        end else Ok dest) = Ok d1 /\ stored it d1 /\ forall x, x <> source_name fname (i_name it) (src_ext it) -> dget x d1 = dget x dest).
    { rewrite (enc_encrypted_some h it (Hh it (or_introl eq_refl))). specialize (Hd it (or_introl eq_refl)). unfold stored, src_ext in *.
      destruct M as [(E & bs & E1 & E2 & Hne)|(E & t & t2 & bsl & E1 & E2 & H1 & H2 & H3)]; rewrite E in *; rewrite E1, E2.
      - destruct bs as [|b bs]; [congruence|]. cbn [has_code]. unfold bin_write, put_file. rewrite Hd.
        eexists; split; [reflexivity|]. split.
        + left. split; [reflexivity|]. eexists. split; [apply dget_dset_same|reflexivity].
        + intros x Hx. apply dget_dset_other. exact Hx.
      - destruct t as [|c t]; cbn [has_code].
        + eexists; split; [reflexivity|]. split; [right|reflexivity]. split; [reflexivity|]. split; [rewrite (H3 eq_refl); reflexivity|exact Hd].
        + unfold txt_write, put_file. rewrite H1, Hd. eexists; split; [reflexivity|]. split.
          * left. split; [reflexivity|]. eexists. split; [apply dget_dset_same|exact H2].
          * intros x Hx. apply dget_dset_other. exact Hx. }
    destruct S as (d1 & -> & S1 & S2). cbn [bind].
    destruct (IH Hm2 Hn2 (fun j Hj => Hh j (or_intror Hj)) d1) as (srcs & W & St & Oth).
    { intros j Hj. rewrite S2; [apply Hd; right; exact Hj|]. apply Ho. exact Hj. }
    exists srcs. split; [exact W|]. split.
    + intros j [<-|Hj]; [|apply St; exact Hj].
      assert (K : dget (source_name fname (i_name it) (src_ext it)) srcs = dget (source_name fname (i_name it) (src_ext it)) d1).
      { apply Oth. intros j Hj E. apply (Ho j Hj). symmetry. exact E. }
      unfold stored in *. rewrite K. exact S1.
    + intros x Hx. rewrite Oth by (intros j Hj; apply Hx; right; exact Hj). apply S2. apply Hx. left. reflexivity.
Qed.

(** read the sources *)
Lemma read_one srcs h it codes : mid os it -> vtruthy (i_info it) = true -> hdr_of it h -> stored it srcs ->
  encode_one srcs fname (i_name it) h codes = Ok (dset (i_name it) (i_code2 it) codes).
Proof.
  intros M V Hh St. unfold encode_one. destruct (Hh) as [Hi _]. rewrite Hi, V, (enc_encrypted_some h it Hh). unfold stored, src_ext in St.
  destruct M as [(E & bs & E1 & E2 & Hne)|(E & t & t2 & bsl & E1 & E2 & H1 & H2 & H3)]; rewrite E in *; rewrite E1, E2 in *.
  - destruct St as [(_ & b & G & Hb)|(_ & C & _)]; [|discriminate]. subst b. unfold bin_read. rewrite G. reflexivity.
  - destruct St as [(_ & b & G & Hb)|(_ & C & G)].
    + unfold txt_read. rewrite G, Hb. reflexivity.
    + injection C as ->. unfold txt_read. rewrite G. reflexivity.
Qed.
Lemma read_all ext its srcs h : present ext its -> NoDup (map fst ext) -> (forall it, In it its -> hdr_of it h /\ stored it srcs) ->
  (forall n s, In (n, s) ext -> dget (dotted uuid s) src = None -> dget (k_info n) h = None) ->
  forall codes, (forall n, In n (map fst ext) -> dget n codes = None) ->
  encode_code srcs fname ext h codes = Ok (codes ++ codes2 its).
Proof.
  induction 1 as [|n s ext its Hg P IH|n s ext its it Hg E1 E2 Hok P IH]; intros Hn Hh Ha codes Hc; cbn [encode_code codes2 map].
  - rewrite app_nil_r. reflexivity.
  - unfold encode_one. rewrite (Ha n s (or_introl eq_refl) Hg). cbn [bind]. inversion Hn as [|x l Hni Hn2]; subst. apply IH; try assumption.
    + intros m r Hi. apply Ha. right. exact Hi.
    + intros m Hm. apply Hc. right. exact Hm.
  - inversion Hn as [|x l Hni Hn2]; subst. destruct Hok as (_ & V & M & _). destruct (Hh it (or_introl eq_refl)) as [H1 H2].
    rewrite (read_one _ _ _ _ M V H1 H2). cbn [bind].
    assert (F : dset (i_name it) (i_code2 it) codes = codes ++ [(i_name it, i_code2 it)]).
    { apply dset_fresh. apply dget_none. apply Hc. left. reflexivity. }
    rewrite F, IH; try assumption.
    + rewrite <- app_assoc. reflexivity.
    + intros j Hj. apply Hh. right. exact Hj.
    + intros m r Hi. apply Ha. right. exact Hi.
    + intros m Hm. rewrite <- F, dget_dset_other; [apply Hc; right; exact Hm|]. intros ->. apply Hni. exact Hm.
Qed.

(** write the container folder *)
Lemma build_all its h ext : Forall (item_ok os dirs uuid src) its -> NoDup (map i_suffix its) -> (forall it, In it its -> hdr_of it h /\ dget (i_name it) ext = Some (i_suffix it)) ->
  forall (dest : folder) files, (forall it, In it its -> dget (dotted uuid (i_suffix it)) dest = None) ->
  exists out, write_encode_code os uuid h (codes2 its) ext dirs dest files = Ok (out, files ++ map (fun it => dotted uuid (i_suffix it)) its) /\
    (forall it, In it its -> dget (dotted uuid (i_suffix it)) out = Some (i_tree it)) /\
    forall x, (forall it, In it its -> x <> dotted uuid (i_suffix it)) -> dget x out = dget x dest.
Proof.
  induction its as [|it its IH]; intros Hok Hn Hh dest files Hd; cbn [codes2 map write_encode_code].
  - exists dest. rewrite app_nil_r. split; [reflexivity|]. split; [intros ? []|reflexivity].
  - inversion Hok as [|? ? K Hok2]; subst. inversion Hn as [|? ? Hni Hn2]; subst. destruct (Hh it (or_introl eq_refl)) as [H1 H2].
    rewrite H2. destruct K as (_ & _ & _ & _ & K). rewrite (K _ _ H1 (Hd it (or_introl eq_refl))). cbn [bind].
    assert (Ho : forall j, In j its -> dotted uuid (i_suffix j) <> dotted uuid (i_suffix it)).
    { intros j Hj E. apply dotted_inj in E. apply Hni. rewrite <- E. apply in_map. exact Hj. }
    destruct (IH Hok2 Hn2 (fun j Hj => Hh j (or_intror Hj)) (dset (dotted uuid (i_suffix it)) (i_tree it) dest) (files ++ [dotted uuid (i_suffix it)])) as (out & W & G & Oth).
    { intros j Hj. rewrite dget_dset_other by (apply Ho; exact Hj). apply Hd. right. exact Hj. }
    exists out. split; [rewrite <- app_assoc in W; exact W|]. split.
    + intros j [<-|Hj]; [|apply G; exact Hj]. rewrite Oth; [apply dget_dset_same|]. intros j Hj E. apply (Ho j Hj). symmetry. exact E.
    + intros x Hx. rewrite Oth by (intros j Hj; apply Hx; right; exact Hj). apply dget_dset_other. apply Hx. left. reflexivity.
Qed.
End All.

(** the names under which the present modules stand in the container folder, in order *)
Definition listed (uuid : list N) (src : folder) (ext : list (list N * list N)) : list (list N) :=
  flat_map (fun ns => match dget (dotted uuid (snd ns)) src with Some _ => [dotted uuid (snd ns)] | None => [] end) ext.
Lemma present_listed os dirs uuid src ext its : present os dirs uuid src ext its -> map (fun it => dotted uuid (i_suffix it)) its = listed uuid src ext.
Proof.
  induction 1 as [|n s ext its Hg P IH|n s ext its it Hg E1 E2 Hok P IH]; [reflexivity| |]; unfold listed in *; cbn [flat_map map snd].
  - rewrite Hg. exact IH.
  - subst s. destruct (dget (dotted uuid (i_suffix it)) src); [|congruence]. cbn [app]. f_equal. exact IH.
Qed.
Lemma present_all os dirs uuid src ext its : present os dirs uuid src ext its -> forall n s, In (n, s) ext -> dget (dotted uuid s) src <> None ->
  exists it, In it its /\ i_suffix it = s /\ i_name it = n.
Proof.
  induction 1 as [|n s ext its Hg P IH|n s ext its it Hg E1 E2 Hok P IH]; intros m r Hi Hne; [destruct Hi| |].
  - destruct Hi as [Hi|Hi]; [injection Hi as <- <-; congruence|eapply IH; eassumption].
  - destruct Hi as [Hi|Hi]; [injection Hi as <- <-; exists it; split; [left; reflexivity|auto]|]. destruct (IH _ _ Hi Hne) as (j & Hj & E). exists j. split; [right; exact Hj|exact E].
Qed.

Lemma modules_restored os dirs uuid fname ext (src : folder) (h0 : header) (dest0 build0 : folder) :
  NoDup (map fst ext) -> NoDup (map snd ext) ->
  (forall n s, In (n, s) ext -> module_entry os dirs (dget (dotted uuid s) src)) ->
  (forall n, In n (map fst ext) -> dget (k_info n) h0 = None) ->
  (forall n x, In n (map fst ext) -> dget (source_name fname n x) dest0 = None) ->
  (forall s, In s (map snd ext) -> dget (dotted uuid s) build0 = None) ->
  exists h codes srcs, decode_code uuid src ext dirs h0 [] = Ok (h, codes) /\ write_decode_code os h codes fname dest0 = Ok srcs /\
    (forall k, (forall n, In n (map fst ext) -> k <> k_info n /\ k <> k_enc n) -> dget k h = dget k h0) /\
    forall h2, (forall n, In n (map fst ext) -> dget (k_info n) h2 = dget (k_info n) h /\ dget (k_enc n) h2 = dget (k_enc n) h) ->
    exists codes2 out, encode_code srcs fname ext h2 [] = Ok codes2 /\
      write_encode_code os uuid h2 codes2 ext dirs build0 [] = Ok (out, listed uuid src ext) /\
      (forall n s, In (n, s) ext -> same_entry (dget (dotted uuid s) src) (dget (dotted uuid s) out)) /\
      (forall x, ~ In x (listed uuid src ext) -> dget x out = dget x build0).
Proof.
  intros N1 N2 Hm H0 D0 B0. destruct (present_exists os dirs uuid src ext Hm) as [its P].
  pose proof (present_ok _ _ _ _ _ _ P) as Hok. pose proof (present_nodup _ _ _ _ _ _ P N1) as Nn. pose proof (present_nodup2 _ _ _ _ _ _ P N2) as Ns.
  set (h := fold_left hdr_step its h0). pose proof (hdr_all its Nn h0) as Hh. fold h in Hh.
  assert (Hmid : Forall (mid os) its) by (eapply Forall_impl; [|exact Hok]; intros it (_ & _ & M & _); exact M).
  destruct (write_all os fname its h Hmid Nn Hh dest0) as (srcs & W & St & _).
  { intros it Hi. apply D0. apply (present_name _ _ _ _ _ _ P). apply in_map. exact Hi. }
  exists h, (codes1 its), srcs. split; [apply (decode_all _ _ _ _ _ _ P N1 h0 []); reflexivity|]. split; [exact W|]. split.
  { intros k Hk. apply hdr_step_other. intros it Hi. apply Hk. apply (present_name _ _ _ _ _ _ P). apply in_map. exact Hi. }
  intros h2 Heq.
  assert (Hh2 : forall it, In it its -> hdr_of it h2).
  { intros it Hi. destruct (Heq (i_name it)) as [A B]; [apply (present_name _ _ _ _ _ _ P); apply in_map; exact Hi|]. destruct (Hh it Hi) as [C D]. split; congruence. }
  exists (codes2 its).
  destruct (build_all os dirs uuid src its h2 ext Hok Ns) with (dest := build0) (files := @nil (list N)) as (out & Wo & G & Oth).
  { intros it Hi. split; [apply Hh2; exact Hi|]. apply dget_nodup; [exact N1|]. apply (present_in _ _ _ _ _ _ P). exact Hi. }
  { intros it Hi. apply B0. apply (present_suffix _ _ _ _ _ _ P). apply in_map. exact Hi. }
  exists out. split.
  { apply (read_all _ _ _ _ _ _ _ srcs h2 P N1); [intros it Hi; split; [apply Hh2|apply St]; exact Hi| |reflexivity].
    intros n s Hi Hg. destruct (Heq n) as [A _]; [apply (in_map fst) in Hi; exact Hi|]. rewrite A. unfold h. rewrite hdr_step_other; [apply H0; apply (in_map fst) in Hi; exact Hi|].
    intros it Hit. split; [|intros E; apply k_info_enc in E; exact E]. intros E. apply k_info_inj in E.
    pose proof (present_in _ _ _ _ _ _ P it Hit) as Hj. rewrite <- E in Hj.
    assert (i_suffix it = s). { apply (dget_nodup n _ ext) in Hj; [|exact N1]. apply (dget_nodup n _ ext) in Hi; [|exact N1]. congruence. }
    rewrite Forall_forall in Hok. destruct (Hok it Hit) as (_ & _ & _ & Sm & _). rewrite H, Hg in Sm. exact Sm. }
  rewrite (present_listed _ _ _ _ _ _ P) in Wo. split; [exact Wo|]. split.
  - intros n s Hi. destruct (dget (dotted uuid s) src) as [tr|] eqn:Eg.
    + destruct (present_all _ _ _ _ _ _ P n s Hi) as (it & Hit & Es & En); [congruence|]. rewrite <- Es, (G it Hit). rewrite Forall_forall in Hok.
      destruct (Hok it Hit) as (_ & _ & _ & Sm & _). rewrite Es, Eg in Sm. exact Sm.
    + rewrite Oth; [rewrite (B0 s) by (apply (in_map snd) in Hi; exact Hi); exact I|]. intros it Hit E. apply dotted_inj in E. subst s.
      rewrite Forall_forall in Hok. destruct (Hok it Hit) as (_ & _ & _ & Sm & _). rewrite Eg in Sm. exact Sm.
  - intros x Hx. apply Oth. intros it Hit E. apply Hx. rewrite <- (present_listed _ _ _ _ _ _ P). rewrite E. apply (in_map (fun it => dotted uuid (i_suffix it))). exact Hit.
Qed.
