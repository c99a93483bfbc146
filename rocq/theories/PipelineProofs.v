(** Proofs about the model in Pipeline.v. *)
From Coq Require Import String.
From Verif Require Import PyBase PyInt Utf PyFile PyText Brace Container Spec_Container ContainerHex ContainerToc ContainerProofs ContainerMore ContainerDefects ContainerBounds.
From Verif Require Import Pipeline Spec_Pipeline.
Open Scope list_scope.
Open Scope Z_scope.

(** ** pieces of 8192 bytes *)
Lemma cut_pieces : forall fuel l, (length l <= fuel)%nat -> cut l (pieces fuel l).
Proof.
  induction fuel as [|k IH]; intros l Hl.
  - destruct l; [constructor|cbn in Hl; lia].
  - destruct l as [|x l]; [constructor|]. cbn [pieces].
    assert (Hz : zlen (x :: l) = Z.of_nat (length (x :: l))) by reflexivity.
    destruct (Z_lt_le_dec (zlen (x :: l)) 8192) as [Hs|Hs].
    + rewrite ztake_all by lia. rewrite zdrop_all by lia.
      replace (pieces k []) with (@nil (list N)) by (destruct k; reflexivity).
      constructor. rewrite zlen_cons in *. pose proof (zlen_nonneg l). lia.
    + rewrite <- (ztake_drop 8192 (x :: l)) at 1. constructor.
      * rewrite zlen_ztake. lia.
      * apply IH. pose proof (zlen_zdrop 8192 (x :: l)) as E. unfold zlen in *. lia.
Qed.
Lemma cut_inv l ps : cut l ps -> l = [] /\ ps = [] \/ 0 < zlen l < 8192 /\ ps = [l] \/ exists p rest qs, l = p ++ rest /\ ps = p :: qs /\ zlen p = 8192 /\ cut rest qs.
Proof.
  destruct 1 as [|p Hp|p rest ps Hp Hr]; [left; auto|right; left; auto|].
  right; right. exists p, rest, ps. auto.
Qed.
Lemma cut_fun l ps : cut l ps -> forall ps', cut l ps' -> ps = ps'.
Proof.
  induction 1 as [|p Hp|p rest ps Hp Hr IH]; intros ps' H'; apply cut_inv in H';
    destruct H' as [[E ->]|[[E ->]|(q & r & qs & E1 & -> & Hq & Hr')]].
  - reflexivity.
  - change (zlen (@nil N)) with 0 in E; lia.
  - symmetry in E1. apply app_eq_nil in E1. destruct E1; subst. change (zlen (@nil N)) with 0 in Hq; lia.
  - subst. change (zlen (@nil N)) with 0 in Hp; lia.
  - reflexivity.
  - subst. rewrite zlen_app in Hp. pose proof (zlen_nonneg r). lia.
  - apply app_eq_nil in E. destruct E; subst. change (zlen (@nil N)) with 0 in Hp; lia.
  - rewrite zlen_app in E. pose proof (zlen_nonneg rest). lia.
  - assert (Ep : ztake 8192 (q ++ r) = ztake 8192 (p ++ rest)) by congruence.
    rewrite !ztake_app_exact in Ep by assumption. subst q.
    apply app_inv_head in E1. subst r. f_equal. apply IH. exact Hr'.
Qed.

Section Inf.
  Variable inf : inflater.

  Definition verdict (f : option bool) : bool := match f with Some b => b | None => false end.
  Lemma loop_no_gap ps : forall st outs acc flag, feed inf st ps = Ok outs ->
    (forall a b, outs = a ++ [] :: b -> concat b = []) ->
    inflate_loop inf st ps acc flag =
      Ok (acc ++ concat outs, verdict (match flag with Some b => Some b | None => match outs with [] => None | o :: _ => Some (str_eqb (ztake 4 o) sig32) end end)).
  Proof.
    induction ps as [|p ps IH]; intros st outs acc flag Hf Hg; cbn [feed inflate_loop] in *.
    - injection Hf as <-. cbn. rewrite app_nil_r. destruct flag; reflexivity.
    - destruct (i_step inf st p) as [[out st']|e]; cbn [bind] in *; [|discriminate].
      destruct (feed inf st' ps) as [outs'|e] eqn:E; cbn [bind] in *; [|discriminate].
      injection Hf as <-. destruct out as [|x out].
      + assert (C : concat outs' = []) by (apply (Hg [] outs'); reflexivity).
        cbn [concat app]. rewrite C, app_nil_r. destruct flag; reflexivity.
      + rewrite (IH st' outs' _ _ E).
        * cbn [concat]. rewrite app_assoc. destruct flag; reflexivity.
        * intros a b ->. apply (Hg ((x :: out) :: a) b). reflexivity.
  Qed.
  Lemma loop_gap ps : forall st before after acc flag, feed inf st ps = Ok (before ++ [] :: after) ->
    Forall (fun o => o <> []) before ->
    exists b, inflate_loop inf st ps acc flag = Ok (acc ++ concat before, b) /\
      b = verdict (match flag with Some b => Some b | None => match before with [] => Some false | o :: _ => Some (str_eqb (ztake 4 o) sig32) end end).
  Proof.
    induction ps as [|p ps IH]; intros st before after acc flag Hf Hn; cbn [feed inflate_loop] in *.
    - destruct before; discriminate.
    - destruct (i_step inf st p) as [[out st']|e]; cbn [bind] in *; [|discriminate].
      destruct (feed inf st' ps) as [outs'|e] eqn:E; cbn [bind] in *; [|discriminate].
      destruct before as [|o before].
      + cbn [app] in Hf. injection Hf as -> ->. cbn [concat]. rewrite app_nil_r. eexists. split; [reflexivity|]. destruct flag; reflexivity.
      + cbn [app] in Hf. injection Hf as -> ->. inversion Hn as [|o' l' Ho Hl]; subst.
        destruct o as [|x o]; [congruence|].
        destruct (IH st' before after (acc ++ x :: o) (match flag with None => Some (str_eqb (ztake 4 (x :: o)) sig32) | _ => flag end) E Hl) as (b & A & B).
        exists b. rewrite A. cbn [concat]. rewrite app_assoc. split; [reflexivity|]. rewrite B. destruct flag; reflexivity.
  Qed.

  Lemma sig_starts d : str_eqb (ztake 4 d) sig32 = true <-> looks_like_container d.
  Proof.
    rewrite str_eqb_spec. split.
    - intros H. exists (zdrop 4 d). rewrite <- (ztake_drop 4 d) at 1. rewrite H. reflexivity.
    - intros [t ->]. reflexivity.
  Qed.
  Lemma sig_starts_false d : ~ looks_like_container d -> str_eqb (ztake 4 d) sig32 = false.
  Proof. intros H. destruct (str_eqb (ztake 4 d) sig32) eqn:E; [|reflexivity]. apply sig_starts in E. contradiction. Qed.

  Lemma inflate_plain s d : restores_without_gap inf s d -> ~ looks_like_container d -> inflate_file inf s = Ok (d, false).
  Proof.
    intros (ps & outs & C & F & E & G) Hn. unfold inflate_file.
    rewrite <- (@cut_fun _ _ C _ (cut_pieces (length s) s (le_n _))). rewrite (@loop_no_gap ps _ _ [] None F G).
    cbn [app]. rewrite E. f_equal. f_equal. destruct outs as [|o outs]; [reflexivity|]. cbn [verdict].
    apply sig_starts_false. intros [t H]. apply Hn. exists (t ++ concat outs). rewrite <- E. cbn [concat]. rewrite H, <- app_assoc. reflexivity.
  Qed.
  Lemma inflate_container s d : restores_promptly inf s d -> looks_like_container d -> inflate_file inf s = Ok (d, true).
  Proof.
    intros (ps & outs & C & F & E & G & P) [t Hd]. unfold inflate_file.
    rewrite <- (@cut_fun _ _ C _ (cut_pieces (length s) s (le_n _))). rewrite (@loop_no_gap ps _ _ [] None F G).
    cbn [app]. rewrite E. f_equal. f_equal. destruct outs as [|o outs]; [cbn in E; subst d; discriminate|]. cbn [verdict].
    apply sig_starts. destruct (P o outs eq_refl) as [L|L]; [|exists t; congruence].
    cbn [concat] in E. exists (zdrop 4 o). rewrite <- (ztake_drop 4 o) at 1. f_equal.
    rewrite <- (@ztake_app_le _ 4 o (concat outs)) by lia. rewrite E, Hd. reflexivity.
  Qed.
  Lemma promptly_without_gap s d : restores_promptly inf s d -> restores_without_gap inf s d.
  Proof. intros (ps & outs & C & F & E & G & P). exists ps, outs. auto. Qed.

  (** ** a folder of results *)
  Lemma dget_app_new {V} k (fo : list (list N * V)) x v : ~ In k (map fst fo) -> dget k (fo ++ (x, v) :: nil) = if str_eqb k x then Some v else None.
  Proof.
    induction fo as [|[k' v'] fo IH]; intros H; cbn [app dget map fst].
    - reflexivity.
    - destruct (str_eqb k k') eqn:E; [apply str_eqb_spec in E; subst; exfalso; apply H; left; reflexivity|].
      apply IH. intros Hin. apply H. right. exact Hin.
  Qed.
  Lemma dset_fresh {V} k (v : V) fo : ~ In k (map fst fo) -> dset k v fo = fo ++ [(k, v)].
  Proof.
    induction fo as [|[k' v'] fo IH]; intros H; cbn [app dset map fst]; [reflexivity|].
    destruct (str_eqb k k') eqn:E; [apply str_eqb_spec in E; subst; exfalso; apply H; left; reflexivity|].
    rewrite IH; [reflexivity|]. intros Hin. apply H. right. exact Hin.
  Qed.
  Lemma ddel_last {V} k (v : V) fo : ~ In k (map fst fo) -> ddel k (fo ++ [(k, v)]) = fo.
  Proof.
    induction fo as [|[k' v'] fo IH]; intros H; cbn [app ddel map fst].
    - rewrite str_eqb_refl. reflexivity.
    - destruct (str_eqb k k') eqn:E; [apply str_eqb_spec in E; subst; exfalso; apply H; left; reflexivity|].
      rewrite IH; [reflexivity|]. intros Hin. apply H. right. exact Hin.
  Qed.
  Lemma ddel_before {V} k k2 (v v2 : V) fo : ~ In k (map fst fo) -> ddel k (fo ++ [(k, v); (k2, v2)]) = fo ++ [(k2, v2)].
  Proof.
    induction fo as [|[k' v'] fo IH]; intros H; cbn [app ddel map fst].
    - rewrite str_eqb_refl. reflexivity.
    - destruct (str_eqb k k') eqn:E; [apply str_eqb_spec in E; subst; exfalso; apply H; left; reflexivity|].
      rewrite IH; [reflexivity|]. intros Hin. apply H. right. exact Hin.
  Qed.
  Lemma app_ext_ne (n ext : list N) : ext <> [] -> n ++ ext <> n.
  Proof. intros H E. apply H. rewrite <- (app_nil_r n) in E at 2. apply app_inv_head in E. exact E. Qed.
  Lemma to_folder_fresh n ext t d fo : ext <> [] -> ~ In n (map fst fo) -> ~ In (n ++ ext) (map fst fo) ->
    to_folder n ext (Ok t) (dset n (TFile d) fo) = Ok (fo ++ [(n, TDir t)]).
  Proof.
    intros He H1 H2. rewrite dset_fresh by exact H1. unfold to_folder, rename_over.
    rewrite dget_app_new by exact H1. rewrite str_eqb_refl.
    rewrite dget_app_new by exact H2.
    assert (E : str_eqb (n ++ ext) n = false) by (apply str_eqb_neq, app_ext_ne, He). rewrite E.
    rewrite ddel_last by exact H1. cbn [bind]. rewrite (@dset_fresh _ (n ++ ext) (TFile d) fo H2).
    rewrite dset_fresh.
    - rewrite <- app_assoc. cbn [app]. rewrite ddel_before by exact H2. reflexivity.
    - rewrite map_app, in_app_iff. cbn. intros [H|[H|[]]]; [contradiction|]. revert H. apply app_ext_ne, He.
  Qed.

  (** ** all tasks of a container *)
  Definition task_ok depth fuel (names : list (list N)) (t : list N * list N) (r : tree) : Prop :=
    exists d b, inflate_file inf (snd t) = Ok (d, b) /\
      if b then ~ In (fst t ++ ext_temp) names /\ exists c, extract_tree depth fuel d = Ok c /\ r = TDir c
      else r = TFile d.
  Lemma tasks_ok depth fuel names : forall ts (r : list N * list N -> tree) fo,
    NoDup (map fst fo ++ map fst ts) -> incl (map fst fo ++ map fst ts) names ->
    Forall (fun t => task_ok depth fuel names t (r t)) ts ->
    decompress_tasks inf depth fuel ts fo = Ok (fo ++ map (fun t => (fst t, r t)) ts).
  Proof.
    induction ts as [|t ts IH]; intros r fo Hnd Hi Hf.
    - cbn. rewrite app_nil_r. reflexivity.
    - inversion Hf as [|t' ts' Ht Hts]; subst. cbn [decompress_tasks].
      assert (Hnew : ~ In (fst t) (map fst fo)).
      { cbn [map] in Hnd. apply NoDup_remove_2 in Hnd. intros H. apply Hnd. apply in_or_app. left. exact H. }
      assert (S : decompress_task inf depth fuel t fo = Ok (fo ++ [(fst t, r t)])).
      { unfold decompress_task. destruct Ht as (d & b & E & R). rewrite E. cbn [bind]. destruct b.
        - destruct R as (Hno & c & Ec & ->). rewrite Ec. apply to_folder_fresh; [discriminate|exact Hnew|].
          intros H. apply Hno. apply Hi. apply in_or_app. left. exact H.
        - rewrite R. rewrite dset_fresh by exact Hnew. reflexivity. }
      rewrite S. cbn [bind]. rewrite (IH r).
      + rewrite <- app_assoc. reflexivity.
      + rewrite map_app, <- app_assoc. exact Hnd.
      + rewrite map_app, <- app_assoc. exact Hi.
      + exact Hts.
  Qed.
End Inf.

(** ** packing *)
Section Pack.
  Variable deflate : list N -> list N.
  Variable digest : list N -> list N.
  Variable os : platform.

  Lemma compress_dget ents : forall ds k, compress_entries deflate ents = Ok ds -> dget k ds = None <-> dget k ents = None.
  Proof.
    induction ents as [|[n x] ents IH]; intros ds k H; cbn [compress_entries] in H.
    - injection H as <-. split; reflexivity.
    - destruct (compress_entry deflate x) as [d|e]; cbn [bind] in H; [|discriminate].
      destruct (compress_entries deflate ents) as [r|e] eqn:E; cbn [bind] in H; [|discriminate].
      injection H as <-. cbn [dget]. destruct (str_eqb k n); [split; discriminate|]. apply IH. reflexivity.
  Qed.
  Lemma dget_none_in {V} k (d : list (list N * V)) : dget k d = None <-> ~ In k (map fst d).
  Proof.
    induction d as [|[k' v] d IH]; cbn [dget map fst]; [split; auto; intros _ []|].
    destruct (str_eqb k k') eqn:E.
    - apply str_eqb_spec in E. subst. split; [discriminate|]. intros H. exfalso. apply H. left. reflexivity.
    - apply str_eqb_neq in E. rewrite IH. split; [intros H [H'|H']; [congruence|contradiction]|]. intros H H'. apply H. right. exact H'.
  Qed.
  Lemma compress_names ents : forall ds, compress_entries deflate ents = Ok ds -> map fst ds = map fst ents.
  Proof.
    induction ents as [|[n x] ents IH]; intros ds H; cbn [compress_entries] in H.
    - injection H as <-. reflexivity.
    - destruct (compress_entry deflate x) as [d|e]; cbn [bind] in H; [|discriminate].
      destruct (compress_entries deflate ents) as [r|e] eqn:E; cbn [bind] in H; [|discriminate].
      injection H as <-. cbn. f_equal. apply IH. reflexivity.
  Qed.
  Lemma compress_all_ok (comp : list N * node -> list N) ents :
    Forall (fun e => compress_entry deflate (snd e) = Ok (comp e)) ents ->
    compress_entries deflate ents = Ok (map (fun e => (fst e, comp e)) ents).
  Proof.
    induction 1 as [|[n x] ents H Hs IH]; [reflexivity|]. cbn [compress_entries map fst snd] in *.
    rewrite H. cbn [bind]. rewrite IH. reflexivity.
  Qed.
  Lemma compress_entries_err ents n x e : In (n, x) ents -> compress_entry deflate x = Err e -> exists e', compress_entries deflate ents = Err e'.
  Proof.
    induction ents as [|[n' x'] ents IH]; intros Hin He; [destruct Hin|]. cbn [compress_entries].
    destruct (compress_entry deflate x') as [d|e0] eqn:E; cbn [bind]; [|eauto].
    destruct Hin as [Heq|Hin]; [injection Heq as -> ->; congruence|].
    destruct (IH Hin He) as [e' ->]. cbn. eauto.
  Qed.

  (** the container of the compressed files *)
  Definition packed_entries (stamp : list N -> Z * Z) (files : list (list N * list N)) : list entry :=
    map (fun e => mkent (fst e) (fst (stamp (fst e))) (snd (stamp (fst e))) (snd e)) files.
  Lemma as_folder_nodes stamp files : as_folder stamp files = map node_of (packed_entries stamp files).
  Proof. unfold as_folder, packed_entries. rewrite map_map. reflexivity. Qed.
  Lemma packed_names stamp files : map e_name (packed_entries stamp files) = map fst files.
  Proof. unfold packed_entries. rewrite map_map. reflexivity. Qed.

  Lemma sort_names_Forall {A} (P : list N * A -> Prop) l : Forall P l -> Forall P (sort_names l).
  Proof. intros H. apply (Permutation_Forall (sort_by_perm _ l)). exact H. Qed.

  Lemma perm_size l l' : Permutation l l' -> container_size layout32 l = container_size layout32 l'.
  Proof.
    intros Hpe. unfold container_size, toc_size, zlen. rewrite <- (Permutation_length Hpe).
    assert (ES : sumz (map (entry_size layout32) l) = sumz (map (entry_size layout32) l')); [|rewrite ES; reflexivity].
    apply (Permutation_map (entry_size layout32)) in Hpe. revert Hpe. generalize (map (entry_size layout32) l).
    generalize (map (entry_size layout32) l').
    intros a b P. unfold sumz. induction P; cbn [fold_right]; lia.
  Qed.
  Theorem pack_extract_gen stamp ents files :
    compress_container deflate digest os ents = Ok files ->
    files <> [] -> ascending (map fst files) -> Forall valid_name (map fst files) ->
    (forall n, In n (map fst files) -> 0 <= fst (stamp n) < 2 ^ 64 /\ 0 <= snd (stamp n) < 2 ^ 64) ->
    container_size layout32 (packed_entries stamp files) < 2147483647 ->
    exists bytes N,
      pack deflate digest os stamp [([48%N], ents)] = Ok bytes
      /\ forall n fuel, (2 <= n)%nat -> (N <= fuel)%nat -> extract_all n fuel bytes = Ok [files].
  Proof.
    intros HC Hne Hasc Hv Hst Hsz. set (es := packed_entries stamp files) in *.
    assert (Hnames : map e_name es = map fst files) by (apply packed_names).
    assert (Hvl : valid_listing es).
    { split; [|split].
      - unfold es. destruct files; [congruence|discriminate].
      - apply Forall_forall. intros e He. assert (Hin : In (e_name e) (map fst files)) by (rewrite <- Hnames; apply in_map; exact He).
        pose proof (proj1 (Forall_forall _ _) Hv _ Hin) as (V1 & V2 & V3).
        destruct (Hst _ Hin) as [S1 S2]. unfold es, packed_entries in He. apply in_map_iff in He. destruct He as ([k d] & <- & _).
        repeat split; cbn in *; assumption || apply S1 || apply S2.
      - rewrite Hnames. apply ascending_nodup, Hasc. }
    destruct (build_extract deflate fmt32 es good32 Hvl (small_count fmt32 es good32 Hsz)) as (f & es' & N & B & S & R).
    { exact Hsz. } { eapply Z.lt_trans; [exact Hsz|reflexivity]. }
    exists (fdata f), N. split.
    - unfold pack. cbn [compress_and_build]. rewrite HC. cbn [bind map fst snd].
      unfold writer_build. change (zlen [([48%N], as_folder stamp files)]) with 1.
      change (negb ((1 =? 1) || (1 =? 2))) with false. change (1 =? 2) with false. cbv iota. cbn [dget].
      change (str_eqb [48%N] [48%N]) with true. cbv iota. rewrite as_folder_nodes. fold es. rewrite B. reflexivity.
    - intros n fuel Hn Hfu. rewrite (R n fuel Hn Hfu). f_equal. f_equal.
      assert (Es : es' = es).
      { apply (@sorted_of_unique es); [exact S|]. split; [reflexivity|]. rewrite Hnames. exact Hasc. }
      rewrite Es. unfold es, packed_entries. rewrite map_map. rewrite <- (map_id files) at 2. apply map_ext. intros [k d]. reflexivity.
  Qed.
  Theorem pack_extract stamp ents (comp : list N * node -> list N) :
    ents <> [] -> NoDup (map fst ents) -> ~ In configinfo (map fst ents) ->
    Forall valid_name (map fst ents) ->
    (forall n, In n (map fst ents) -> 0 <= fst (stamp n) < 2 ^ 64 /\ 0 <= snd (stamp n) < 2 ^ 64) ->
    Forall (fun e => compress_entry deflate (snd e) = Ok (comp e)) ents ->
    container_size layout32 (packed_entries stamp (map (fun e => (fst e, comp e)) ents)) < 2147483647 ->
    exists bytes N,
      pack deflate digest os stamp [([48%N], ents)] = Ok bytes
      /\ forall n fuel, (2 <= n)%nat -> (N <= fuel)%nat ->
         extract_all n fuel bytes = Ok [map (fun e => (fst e, comp e)) (sort_names ents)].
  Proof.
    intros Hne Hnd Hci Hv Hst Hc Hsz.
    pose proof (sort_by_perm (fun x y : list N * node => str_leb (fst x) (fst y)) ents) as Hp. fold (sort_names ents) in Hp.
    assert (Hpn : Permutation (map fst ents) (map fst (sort_names ents))) by (apply Permutation_map, Hp).
    assert (Hff : map fst (map (fun e => (fst e, comp e)) (sort_names ents)) = map fst (sort_names ents)) by (rewrite map_map; reflexivity).
    apply pack_extract_gen.
    - unfold compress_container. rewrite (compress_all_ok comp) by (apply sort_names_Forall, Hc). cbn [bind]. unfold calc_sha1.
      replace (dget configinfo (map (fun e => (fst e, comp e)) (sort_names ents))) with (@None (list N)); [reflexivity|].
      symmetry. apply dget_none_in. rewrite Hff. intros H. apply Hci. apply (Permutation_in _ (Permutation_sym Hpn)). exact H.
    - intros E. apply map_eq_nil in E. rewrite E in Hp. apply Permutation_sym, Permutation_nil in Hp. congruence.
    - rewrite Hff. apply sort_names_ascending, Hnd.
    - rewrite Hff. apply (Permutation_Forall Hpn). exact Hv.
    - rewrite Hff. intros n Hin. apply Hst. apply (Permutation_in _ (Permutation_sym Hpn)). exact Hin.
    - erewrite perm_size; [exact Hsz|]. unfold packed_entries. apply Permutation_map, Permutation_map, Permutation_sym, Hp.
  Qed.
End Pack.

(** ** one-level folders *)
Section Sub.
  Variable deflate : list N -> list N.
  Lemma each_plain sub : forall outs fo, NoDup (map fst fo ++ map fst outs) ->
    Forall (fun o => ~ looks_like_container (snd o)) outs ->
    extract_each sub outs fo = Ok (fo ++ map (fun o => (fst o, TFile (snd o))) outs).
  Proof.
    induction outs as [|[n d] outs IH]; intros fo Hnd Hf.
    - cbn. rewrite app_nil_r. reflexivity.
    - inversion Hf as [|o l Ho Hl]; subst. cbn [extract_each map fst snd] in *.
      assert (Hnew : ~ In n (map fst fo)).
      { apply NoDup_remove_2 in Hnd. intros H. apply Hnd. apply in_or_app. left. exact H. }
      rewrite sig_starts_false by exact Ho. cbn [bind]. rewrite dset_fresh by exact Hnew. rewrite IH.
      + rewrite <- app_assoc. reflexivity.
      + rewrite map_app, <- app_assoc. exact Hnd.
      + exact Hl.
  Qed.
  Lemma hdr_signature count : 0 <= count < 2 ^ 31 -> exists t, hdr fmt32 count = sig32 ++ t.
  Proof.
    intros Hc. unfold hdr.
    assert (Hcp : exists c, pack_int true 4 count = Ok c).
    { unfold pack_int. change (256 ^ Z.of_nat 4) with 4294967296. change (4294967296 / 2) with 2147483648.
      change (2 ^ 31) with 2147483648 in Hc.
      replace ((_ <=? count) && (count <? _)) with true by lia. eexists; reflexivity. }
    destruct Hcp as [c ->]. eexists. reflexivity.
  Qed.

  Definition stored (i : item) : list N :=
    match i with
    | Plain e => deflate (e_data e)
    | Sub _ es => match build deflate fmt32 fempty (map file_node es) true 0 with Ok f => deflate (fdata f) | Err _ => [] end
    end.
  Lemma sub_ok es : valid_listing es -> container_size layout32 es < 2147483647 ->
    exists f es' N, build deflate fmt32 fempty (map file_node es) true 0 = Ok f
      /\ looks_like_container (fdata f) /\ sorted_of es es'
      /\ (no_signature es -> forall depth fuel, (N <= fuel)%nat -> extract_tree depth fuel (fdata f) = Ok (map file_tree es')).
  Proof.
    intros Hv Hs.
    assert (Hs2 : container_size layout32 es < 2 ^ 62) by (eapply Z.lt_trans; [exact Hs|reflexivity]).
    destruct (container_roundtrip deflate fmt32 es good32 Hv (small_count fmt32 es good32 Hs) Hs Hs2) as (f & es' & N & size & B & L & S & Hz & (tl & Htl) & R).
    exists f, es', N. split; [exact B|]. split.
    { pose proof (small_count fmt32 es good32 Hs) as Hcount. pose proof (zlen_nonneg es) as Hpos.
      destruct (@hdr_signature (zlen es)) as [t Ht]; [lia|]. exists (t ++ tl). rewrite Htl, Ht, <- app_assoc. reflexivity. }
    split; [exact S|]. intros Hn depth fuel Hfu.
    assert (E : forall sub, ('(fs, _) <- read_container fuel fmt32 (fdata f) 0 ;; outs <- extract_files fuel fmt32 0 (fdata f) fs ;; extract_each sub outs []) = Ok (map file_tree es')).
    { intros sub. rewrite R by exact Hfu. cbn [bind]. rewrite extract_files_body. cbn [bind]. rewrite each_plain.
      - cbn [app]. rewrite map_map. reflexivity.
      - cbn [map app]. rewrite map_map. cbn [fst]. apply ascending_nodup. apply S.
      - apply Forall_forall. intros o Ho. apply in_map_iff in Ho. destruct Ho as (e & <- & He). cbn [snd].
        apply (proj1 (Forall_forall _ _) Hn). apply (Permutation_in _ (Permutation_sym (proj1 S))). exact He. }
    destruct depth; cbn [extract_tree]; apply E.
  Qed.
  Lemma stored_ok i : valid_item i -> compress_entry deflate (snd (item_node i)) = Ok (stored i).
  Proof.
    destruct i as [e|n es]; cbn [valid_item item_node snd compress_entry stored]; intros H; [reflexivity|].
    destruct H as (Hv & Hn & Hs). destruct (sub_ok es Hv Hs) as (f & es' & N & B & _). rewrite B. reflexivity.
  Qed.
  Lemma item_name i : fst (item_node i) = i_name i.
  Proof. destruct i; reflexivity. Qed.
  Lemma fuel_bound {A} (P : nat -> A -> Prop) : (forall m n x, (m <= n)%nat -> P m x -> P n x) ->
    forall l, Forall (fun x => exists n, P n x) l -> exists n, Forall (P n) l.
  Proof.
    intros Hm l H. induction H as [|x l [n Hx] Hl [k IH]]; [exists O; constructor|].
    exists (Nat.max n k). constructor; [eapply Hm; [|exact Hx]; lia|].
    eapply Forall_impl; [|exact IH]. intros y Hy. eapply Hm; [|exact Hy]. lia.
  Qed.
End Sub.

Lemma nodup_left {A} (a b : list A) : NoDup (a ++ b) -> NoDup a.
Proof.
  induction a as [|x a IH]; intros H; [constructor|]. cbn in H. inversion H as [|y l H1 H2]; subst. constructor; [|apply IH, H2].
  intros Hin. apply H1. apply in_or_app. left. exact Hin.
Qed.

Definition codec_fits (deflate : list N -> list N) (inf : inflater) (i : item) : Prop :=
  match i with
  | Plain e => restores_without_gap inf (deflate (e_data e)) (e_data e)
  | Sub _ _ => forall d, restores_promptly inf (deflate d) d
  end.

Theorem pipeline deflate digest os inf stamp items :
  items <> [] -> NoDup (map i_name items) -> Forall valid_name (map i_name items) -> ~ In configinfo (map i_name items) ->
  Forall valid_item items -> Forall (codec_fits deflate inf) items ->
  (forall n es, In (Sub n es) items -> ~ In (n ++ ext_temp) (map i_name items)) ->
  (forall n, In n (map i_name items) -> 0 <= fst (stamp n) < 2 ^ 64 /\ 0 <= snd (stamp n) < 2 ^ 64) ->
  container_size layout32 (map (fun i => mkent (i_name i) (fst (stamp (i_name i))) (snd (stamp (i_name i))) (stored deflate i)) items) < 2147483647 ->
  exists bytes N,
    pack deflate digest os stamp [([48%N], map item_node items)] = Ok bytes
    /\ forall sched n fuel depth, (forall l, Permutation l (sched l)) -> (2 <= n)%nat -> (N <= fuel)%nat ->
       exists items' fo, Permutation items items' /\ Forall2 comes_back items' fo
         /\ unpack inf n fuel depth sched bytes = Ok [fo].
Proof.
  intros Hne Hnd Hvn Hci Hvi Hcf Htmp Hst Hsz.
  assert (Hfst : map fst (map item_node items) = map i_name items) by (rewrite map_map; apply map_ext; exact item_name).
  set (ents := map item_node items) in *.
  set (comp := fun e : list N * node => match compress_entry deflate (snd e) with Ok c => c | Err _ => [] end).
  assert (Hcomp : forall i, In i items -> comp (item_node i) = stored deflate i).
  { intros i Hi. unfold comp. rewrite (stored_ok deflate i) by (exact (proj1 (Forall_forall _ _) Hvi i Hi)). reflexivity. }
  destruct (pack_extract deflate digest os stamp ents comp) as (bytes & N1 & HP & HX).
  { unfold ents. destruct items; [congruence|discriminate]. }
  { rewrite Hfst. exact Hnd. } { rewrite Hfst. exact Hci. } { rewrite Hfst. exact Hvn. } { rewrite Hfst. exact Hst. }
  { apply Forall_forall. intros e He. unfold ents in He. apply in_map_iff in He. destruct He as (i & <- & Hi).
    rewrite Hcomp by exact Hi. apply stored_ok. exact (proj1 (Forall_forall _ _) Hvi i Hi). }
  { replace (packed_entries stamp (map (fun e => (fst e, comp e)) ents)) with (map (fun i => mkent (i_name i) (fst (stamp (i_name i))) (snd (stamp (i_name i))) (stored deflate i)) items); [exact Hsz|].
    unfold ents, packed_entries. rewrite !map_map. apply map_ext_in. intros i Hi. cbn [fst snd]. rewrite item_name, Hcomp by exact Hi. reflexivity. }
  assert (HN : exists N, Forall (fun i => exists r, comes_back i r /\ forall depth fuel, (N <= fuel)%nat ->
       task_ok inf depth fuel (map i_name items) (i_name i, stored deflate i) (snd r)) items).
  { apply (@fuel_bound item (fun N i => exists r, comes_back i r /\ forall depth fuel, (N <= fuel)%nat -> task_ok inf depth fuel (map i_name items) (i_name i, stored deflate i) (snd r))).
    - intros a b x Hab (r & H1 & H2). exists r. split; [exact H1|]. intros depth fuel Hf. apply H2. lia.
    - apply Forall_forall. intros i Hi. pose proof (proj1 (Forall_forall _ _) Hvi i Hi) as Hv. pose proof (proj1 (Forall_forall _ _) Hcf i Hi) as Hc.
      destruct i as [e|n es]; cbn [valid_item codec_fits] in Hv, Hc.
      + exists O, (file_tree e). split; [constructor|]. intros depth fuel _. exists (e_data e), false. cbn [stored i_name snd file_tree].
        split; [apply inflate_plain; assumption|reflexivity].
      + destruct Hv as (Hv & Hns & Hs). destruct (sub_ok deflate es Hv Hs) as (f & es' & N & B & Hsig & S & HT).
        exists N, (n, TDir (map file_tree es')). split; [constructor; exact S|]. intros depth fuel Hfu.
        exists (fdata f), true. cbn [stored i_name snd fst]. rewrite B. split; [apply inflate_container; [apply Hc|exact Hsig]|].
        split; [apply (Htmp n es Hi)|]. exists (map file_tree es'). split; [apply HT; assumption|reflexivity]. }
  destruct HN as [N2 HN]. exists bytes, (Nat.max N1 N2). split; [exact HP|].
  intros sched n fuel depth Hperm Hn Hfu. unfold unpack. rewrite HX by lia. cbn [bind decompress_all].
  set (files := map (fun e => (fst e, comp e)) (sort_names ents)).
  assert (Hpi : Permutation (map (fun i => (i_name i, stored deflate i)) items) (sched files)).
  { transitivity files; [|apply Hperm]. unfold files.
    replace (map (fun i => (i_name i, stored deflate i)) items) with (map (fun e : list N * node => (fst e, comp e)) ents).
    - apply Permutation_map, sort_by_perm.
    - unfold ents. rewrite map_map. apply map_ext_in. intros i Hi. cbn. rewrite item_name, Hcomp by exact Hi. reflexivity. }
  apply Permutation_sym in Hpi. apply Permutation_map_inv in Hpi. destruct Hpi as (items' & Eq & Hp').
  rewrite Eq.
  assert (HN' : Forall (fun i => exists r, comes_back i r /\ task_ok inf depth fuel (map i_name items) (i_name i, stored deflate i) (snd r)) items').
  { apply (Permutation_Forall Hp'). eapply Forall_impl; [|exact HN]. intros i (r & A & B). exists r. split; [exact A|apply B; lia]. }
  assert (HR : exists rs, Forall2 comes_back items' rs /\ Forall2 (fun i r => task_ok inf depth fuel (map i_name items) (i_name i, stored deflate i) (snd r)) items' rs).
  { clear - HN'. induction HN' as [|i l (r & A & B) Hl (rs & IH1 & IH2)]; [exists []; split; constructor|].
    exists (r :: rs). split; constructor; assumption. }
  destruct HR as (rs & R1 & R2).
  assert (HD : forall its rs fo, Forall2 comes_back its rs -> Forall2 (fun i r => task_ok inf depth fuel (map i_name items) (i_name i, stored deflate i) (snd r)) its rs ->
    NoDup (map fst fo ++ map i_name its) -> incl (map fst fo ++ map i_name its) (map i_name items) ->
    decompress_tasks inf depth fuel (map (fun i => (i_name i, stored deflate i)) its) fo = Ok (fo ++ rs)).
  { clear. intros its rs fo A. revert fo. induction A as [|i r its rs Hir A IH]; intros fo B Hnd Hi.
    - cbn. rewrite app_nil_r. reflexivity.
    - inversion B as [|i' r' l l' B1 B2]; subst.
      assert (Hname : fst r = i_name i) by (destruct Hir; reflexivity).
      pose proof (@tasks_ok inf depth fuel (map i_name items) [(i_name i, stored deflate i)] (fun _ => snd r) fo) as T.
      cbn [map fst] in T. cbn [map decompress_tasks] in *.
      assert (Hincl : incl (map fst fo ++ [i_name i]) (map i_name items)).
      { intros x Hx. apply Hi. apply in_app_or in Hx. apply in_or_app. destruct Hx as [Hx|[<-|[]]]; [left; exact Hx|right; left; reflexivity]. }
      assert (Hnd1 : NoDup (map fst fo ++ [i_name i])).
      { replace (i_name i :: map i_name its) with ([i_name i] ++ map i_name its) in Hnd by reflexivity. rewrite app_assoc in Hnd. apply nodup_left in Hnd. exact Hnd. }
      specialize (T Hnd1 Hincl). assert (HF : Forall (fun t => task_ok inf depth fuel (map i_name items) t (snd r)) [(i_name i, stored deflate i)]) by (constructor; [exact B1|constructor]). specialize (T HF).
      destruct (decompress_task inf depth fuel (i_name i, stored deflate i) fo) as [fo'|e] eqn:E; cbn [bind] in *; [|discriminate].
      injection T as ->. rewrite IH.
      + rewrite <- app_assoc. cbn [app]. rewrite <- Hname. rewrite <- surjective_pairing. reflexivity.
      + exact B2.
      + rewrite map_app. cbn [map fst]. rewrite <- app_assoc. exact Hnd.
      + rewrite map_app. cbn [map fst]. rewrite <- app_assoc. exact Hi. }
  exists items', rs. split; [exact Hp'|]. split; [exact R1|].
  rewrite (HD items' rs [] R1 R2).
  - reflexivity.
  - cbn [map app]. apply (Permutation_NoDup (Permutation_map i_name Hp')). exact Hnd.
  - cbn [map app]. intros x Hx. apply (Permutation_in _ (Permutation_sym (Permutation_map i_name Hp'))). exact Hx.
Qed.
