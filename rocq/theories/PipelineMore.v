(** Defects of the pipeline, and the rewriting of configinfo. *)
From Coq Require Import String.
From Verif Require Import PyBase PyInt Utf PyFile PyText PyB64 Brace Spec_Brace BraceProofs BraceMore Container Spec_Container ContainerHex ContainerToc ContainerProofs ContainerMore ContainerDefects ContainerBounds.
From Verif Require Import Pipeline Spec_Pipeline PipelineProofs.
Open Scope list_scope.
Open Scope Z_scope.

(** ** a stream with a gap is cut silently *)
Lemma inflate_gap inf s ps before after : cut s ps -> feed inf (i_init inf) ps = Ok (before ++ [] :: after) ->
  Forall (fun o => o <> []) before -> exists b, inflate_file inf s = Ok (concat before, b).
Proof.
  intros C F H. unfold inflate_file. rewrite <- (@cut_fun _ _ C _ (cut_pieces (length s) s (le_n _))).
  destruct (@loop_gap inf ps _ _ _ [] None F H) as (b & E & _). exists b. exact E.
Qed.

(** ** a container and a file called like its temporary copy *)
Lemma dget_dset_same {V} k (v : V) d : dget k (dset k v d) = Some v.
Proof. induction d as [|[k' v'] d IH]; cbn [dset dget]; [rewrite str_eqb_refl; reflexivity|]. destruct (str_eqb k k') eqn:E; cbn [dget]; rewrite E; [reflexivity|exact IH]. Qed.
Lemma dget_dset_other {V} k k2 (v : V) d : k <> k2 -> dget k (dset k2 v d) = dget k d.
Proof.
  intros H. induction d as [|[k' v'] d IH]; cbn [dset dget].
  - apply str_eqb_neq in H. rewrite H. reflexivity.
  - destruct (str_eqb k2 k') eqn:E; cbn [dget]; [|rewrite IH; reflexivity].
    apply str_eqb_spec in E. subst k'. apply str_eqb_neq in H. rewrite H. reflexivity.
Qed.
Lemma nodup_dset' {V} k (v : V) d : NoDup (map fst d) -> NoDup (map fst (dset k v d)).
Proof.
  intros H. assert (C : map fst (dset k v d) = map fst d \/ ~ In k (map fst d) /\ map fst (dset k v d) = map fst d ++ [k]).
  { clear H. induction d as [|[k' v'] d IH]; cbn [dset map fst]; [right; auto|].
    destruct (str_eqb k k') eqn:E; cbn [map fst]; [left; reflexivity|]. apply str_eqb_neq in E.
    destruct IH as [->|[N ->]]; [left; reflexivity|right]. split; [|reflexivity]. intros [H|H]; [congruence|contradiction]. }
  destruct C as [->|[N ->]]; [exact H|]. apply (Permutation_NoDup (l := k :: map fst d)).
  - apply Permutation_cons_append.
  - constructor; assumption.
Qed.
Lemma dget_ddel_same {V} k (d : list (list N * V)) : NoDup (map fst d) -> dget k (ddel k d) = None.
Proof.
  induction d as [|[k' v'] d IH]; intros H; [reflexivity|]. cbn [ddel]. inversion H as [|x l Hx Hl]; subst.
  destruct (str_eqb k k') eqn:E; [apply str_eqb_spec in E; subst; apply dget_none_in; exact Hx|].
  cbn [dget]. rewrite E. apply IH. exact Hl.
Qed.
Lemma dget_ddel_other {V} k k2 (d : list (list N * V)) : k <> k2 -> dget k (ddel k2 d) = dget k d.
Proof.
  intros H. induction d as [|[k' v'] d IH]; [reflexivity|]. cbn [ddel].
  destruct (str_eqb k2 k') eqn:E; cbn [dget]; [|rewrite IH; reflexivity].
  apply str_eqb_spec in E. subst. apply str_eqb_neq in H. rewrite H. reflexivity.
Qed.
Lemma nodup_ddel' {V} k (d : list (list N * V)) : NoDup (map fst d) -> NoDup (map fst (ddel k d)).
Proof.
  assert (I : forall x, In x (map fst (ddel k d)) -> In x (map fst d)).
  { induction d as [|[k' v'] d IH]; [auto|]. cbn [ddel]. intros x. destruct (str_eqb k k'); cbn [map fst]; [right; assumption|].
    intros [H|H]; [left; exact H|right; apply IH; exact H]. }
  revert I. induction d as [|[k' v'] d IH]; [constructor|]. intros I H. inversion H as [|x l Hx Hl]; subst. cbn [ddel] in *.
  destruct (str_eqb k k'); [exact Hl|]. cbn [map fst] in *. 
  assert (I2 : forall x, In x (map fst (ddel k d)) -> In x (map fst d)).
  { clear. induction d as [|[k1 v1] d IH]; [auto|]. cbn [ddel]. intros x. destruct (str_eqb k k1); cbn [map fst]; [right; assumption|].
    intros [H|H]; [left; exact H|right; apply IH; exact H]. }
  constructor; [intros Hin; apply Hx, I2, Hin|]. apply IH; assumption.
Qed.
Lemma to_folder_result n ext sub fo fo' : ext <> [] -> NoDup (map fst fo) -> to_folder n ext sub fo = Ok fo' ->
  dget (n ++ ext) fo' = None /\ exists t, sub = Ok t /\ dget n fo' = Some (TDir t).
Proof.
  intros He Hnd H. unfold to_folder, rename_over in H.
  assert (Hx : n ++ ext <> n) by (apply app_ext_ne, He).
  destruct (dget n fo) as [x|]; [|discriminate]. cbn [bind] in H.
  assert (forall fo1, NoDup (map fst fo1) -> (t <- sub ;; Ok (ddel (n ++ ext) (dset n (TDir t) fo1))) = Ok fo' ->
    dget (n ++ ext) fo' = None /\ exists t, sub = Ok t /\ dget n fo' = Some (TDir t)) as G.
  { intros fo1 Hnd1 E. destruct sub as [t|e]; cbn [bind] in E; [|discriminate]. injection E as <-. split.
    - apply dget_ddel_same, nodup_dset', Hnd1.
    - exists t. split; [reflexivity|]. rewrite dget_ddel_other by congruence. apply dget_dset_same. }
  assert (Hnd2 : NoDup (map fst (dset (n ++ ext) x (ddel n fo)))) by (apply nodup_dset', nodup_ddel', Hnd).
  destruct (dget (n ++ ext) fo) as [[d|l]|]; cbn [bind] in H; try discriminate; apply (G _ Hnd2 H).
Qed.
Lemma sibling_lost inf depth fuel n s d fo fo' : restores_promptly inf s d -> looks_like_container d -> NoDup (map fst fo) ->
  decompress_task inf depth fuel (n, s) fo = Ok fo' -> dget (n ++ ext_temp) fo' = None.
Proof.
  intros R L Hnd H. unfold decompress_task in H. cbn [fst snd] in H. rewrite (@inflate_container _ _ _ R L) in H. cbn [bind] in H.
  apply to_folder_result in H; [apply H|discriminate|apply nodup_dset', Hnd].
Qed.
Lemma signature_file inf depth fuel n s d fo fo' : restores_promptly inf s d -> looks_like_container d -> NoDup (map fst fo) ->
  decompress_task inf depth fuel (n, s) fo = Ok fo' -> exists t, extract_tree depth fuel d = Ok t /\ dget n fo' = Some (TDir t).
Proof.
  intros R L Hnd H. unfold decompress_task in H. cbn [fst snd] in H. rewrite (@inflate_container _ _ _ R L) in H. cbn [bind] in H.
  apply to_folder_result in H; [apply H|discriminate|apply nodup_dset', Hnd].
Qed.

(** ** folders that cannot be packed *)
Lemma add_files_dir deflate fm inflate ents n e : In (n, PDirErr e) ents -> forall st, exists e', add_files deflate fm inflate st ents = Err e'.
Proof.
  induction ents as [|[n' p] ents IH]; intros Hin st; [destruct Hin|]. cbn [add_files].
  destruct (add_file deflate fm inflate st n' p) as [st'|e0] eqn:E; cbn [bind]; [|eauto].
  destruct Hin as [Heq|Hin]; [injection Heq as -> ->; discriminate|]. apply IH. exact Hin.
Qed.
Lemma build_nested_dir deflate fm f ents nested offset n sub : In (n, NDir sub) ents -> exists e, build deflate fm f ents nested offset = Err e.
Proof.
  intros Hin. unfold build, build_prepared. cbv zeta.
  destruct (write_header fm f offset _) as [f0|e]; cbn [bind]; [|eauto].
  assert (Hp : exists e, In (n, PDirErr e) (sort_names (map (fun e => (fst e, prep_of deflate (snd e))) ents))).
  { assert (Q : exists e, prep_of deflate (NDir sub) = PDirErr e) by (cbn [prep_of]; destruct (build_prepared _ _ _ _ _ _); eauto).
    destruct Q as [e Q]. exists e. apply (Permutation_in _ (sort_by_perm _ _)). apply in_map_iff. exists (n, NDir sub). cbn [fst snd]. rewrite Q. auto. }
  destruct Hp as [e He]. destruct (@add_files_dir deflate fm (negb nested) _ _ _ He (mkw f0 [])) as [e' ->]. cbn. eauto.
Qed.
Lemma pack_err deflate digest os stamp ents n x e rest name : In (n, x) ents -> compress_entry deflate x = Err e ->
  exists e', pack deflate digest os stamp ((name, ents) :: rest) = Err e'.
Proof.
  intros Hin He. unfold pack. cbn [compress_and_build]. unfold compress_container.
  destruct (@compress_entries_err deflate (sort_names ents) n x e) as [e' ->]; [|exact He|cbn; eauto].
  apply (Permutation_in _ (sort_by_perm _ _)). exact Hin.
Qed.
Lemma two_levels deflate digest os stamp name ents rest n sub n2 sub2 : In (n, NDir sub) ents -> In (n2, NDir sub2) sub ->
  exists e, pack deflate digest os stamp ((name, ents) :: rest) = Err e.
Proof.
  intros H1 H2. destruct (@build_nested_dir deflate fmt32 fempty sub true 0 n2 sub2 H2) as [e E].
  apply (@pack_err deflate digest os stamp ents n (NDir sub) e rest name H1). cbn [compress_entry]. rewrite E. reflexivity.
Qed.
Lemma empty_folder deflate digest os stamp name ents rest n : In (n, NDir []) ents ->
  exists e, pack deflate digest os stamp ((name, ents) :: rest) = Err e.
Proof. intros H. eapply pack_err; [exact H|]. cbn [compress_entry]. reflexivity. Qed.

(** ** configinfo *)
Lemma enc_elems_strs nl parts : Forall unfolded parts -> enc_elems nl (map VStr parts) = comma_separated parts.
Proof.
  induction 1 as [|p parts Hp Hs IH]; [reflexivity|]. cbn [map enc_elems enc_val is_list].
  assert (E : enc_str nl p = p).
  { destruct Hp as (H1 & H2 & H3). unfold enc_str. rewrite H1, H2. destruct (Nat.ltb 64 (length p)) eqn:E; [|reflexivity].
    apply Nat.ltb_lt in E. destruct H3 as [H3|H3]; [lia|]. rewrite H3. reflexivity. }
  rewrite E. destruct parts as [|q parts]; [cbn; apply app_nil_r|]. cbn [map comma_separated]. cbn [map] in IH.
  change (enc_elems nl) with (enc_elems nl) in IH. f_equal. cbn [app]. f_equal. exact IH.
Qed.
Lemma unfolded_quoted n : zlen n <= 62 -> unfolded (quoted_name n).
Proof.
  intros H. unfold quoted_name. split; [reflexivity|]. split; [reflexivity|]. left. cbn [app length]. rewrite app_length. unfold zlen in H. cbn [length]. lia.
Qed.
Lemma versions_text_ok digest dest :
  let others := filter (fun e => negb (str_eqb (fst e) configinfo)) dest in
  unfolded (str_of_int (zlen others)) -> Forall (fun e => zlen (fst e) <= 62 /\ unfolded (digest (snd e))) others ->
  versions_text digest dest = Ok (versions_line (str_of_int (zlen others)) digest others).
Proof.
  intros others H1 H2. unfold versions_text. fold others. unfold encode_root_object. cbn [enc_roots_go enc_root1 bind app].
  unfold enc_obj, versions_line. f_equal. cbn [app]. f_equal. f_equal.
  replace (VStr (str_of_int (zlen others)) :: flat_map (fun e => [VStr (QUOTE :: fst e ++ [QUOTE]); VStr (digest (snd e))]) others)
    with (map VStr (str_of_int (zlen others) :: version_fields digest others)).
  - apply enc_elems_strs. constructor; [exact H1|]. unfold version_fields. revert H2. generalize others. clear.
    induction 1 as [|e l [A B] Hl IH]; cbn [flat_map app]; [constructor|]. constructor; [apply unfolded_quoted, A|]. constructor; [exact B|exact IH].
  - cbn [map]. f_equal. unfold version_fields. generalize others. clear. induction others as [|e l IH]; [reflexivity|]. cbn [flat_map app map]. rewrite IH. reflexivity.
Qed.
Lemma utf8_char_len c : 1 <= zlen (utf8_char c).
Proof. unfold utf8_char. destruct (c <? 128)%N; [|destruct (c <? 2048)%N; [|destruct (c <? 65536)%N]]; rewrite ?zlen_cons, zlen_nil; lia. Qed.
Lemma utf8_len_ge s : zlen s <= zlen (flat_map utf8_char s).
Proof. induction s as [|c s IH]; [cbn; lia|]. cbn [flat_map]. rewrite zlen_cons, zlen_app. pose proof (utf8_char_len c). lia. Qed.
Lemma utf8_encode_ok s : Forall scalar s -> utf8_encode s = Ok (flat_map utf8_char s).
Proof.
  intros Hs. unfold utf8_encode. replace (forallb (fun c => negb (is_surrogate c)) s) with true; [reflexivity|].
  symmetry; apply forallb_forall. intros c Hc. rewrite Forall_forall in Hs. destruct (Hs c Hc) as [_ ->]; reflexivity.
Qed.
Lemma utf8_decode_ok s : Forall scalar s -> utf8_decode (flat_map utf8_char s) = Ok s.
Proof. intros Hs. destruct (utf8_roundtrip s Hs) as (bs & H1 & H2). rewrite (utf8_encode_ok s Hs) in H1. injection H1 as <-. exact H2. Qed.
Lemma write_nl_utf8_len os s : zlen (flat_map utf8_char s) <= zlen (flat_map utf8_char (write_nl os s)).
Proof.
  induction s as [|c s IH]; [cbn; lia|]. rewrite write_nl_cons. cbn [flat_map]. rewrite flat_map_app, !zlen_app.
  destruct (N.eqb_spec c LF) as [->|Hc].
  - assert (1 <= zlen (flat_map utf8_char (linesep os))) by (destruct os; vm_compute; discriminate).
    change (zlen (utf8_char LF)) with 1. lia.
  - cbn [flat_map]. rewrite app_nil_r. lia.
Qed.
Lemma skipn_cons_nth {A} i (p : list A) : (i < length p)%nat -> exists x t, skipn i p = x :: t /\ nth_error p i = Some x.
Proof. revert p. induction i as [|i IH]; intros [|x p] H; cbn in *; try lia; [eauto|]. apply IH. lia. Qed.
Lemma starts_app_cases p a b : starts p (a ++ b) = true -> (exists t, a = p ++ t) \/ exists q, p = a ++ q /\ starts q b = true /\ q <> [].
Proof.
  revert a. induction p as [|x p IH]; intros a H; [left; exists a; reflexivity|].
  destruct a as [|y a]; [right; exists (x :: p); cbn [app] in *; repeat split; [exact H|discriminate]|].
  cbn in H. apply andb_true_iff in H. destruct H as [E H]. apply N.eqb_eq in E. subst y.
  destruct (IH a H) as [[t ->]|(q & -> & Hq & Hn)]; [left; exists t; reflexivity|right; exists q; auto].
Qed.
(** the opening brace occurs in the mark only at its beginning *)
Lemma mark_no_overlap a q : mark_text = a ++ q -> a <> [] -> q <> [] -> forall t, starts q (mark_text ++ t) = false.
Proof.
  intros E Ha Hq t. destruct q as [|c q]; [congruence|]. change mark_text with (123%N :: tl mark_text). cbn [app starts].
  destruct (N.eqb_spec c 123) as [->|]; [|reflexivity]. exfalso.
  destruct a as [|x a]; [congruence|]. unfold mark_text in E. cbn [app] in E. injection E as _ E.
  assert (Hin : In 123%N (a ++ 123%N :: q)) by (apply in_or_app; right; left; reflexivity).
  rewrite <- E in Hin. repeat (destruct Hin as [Hin|Hin]; [discriminate|]). destruct Hin.
Qed.
Lemma contains_app_l p a b : contains p a -> contains p (a ++ b).
Proof. intros (x & y & ->). exists x, (y ++ b). rewrite <- !app_assoc. reflexivity. Qed.
Lemma replace_once rep p1 p2 : ~ contains mark_text p1 -> ~ contains mark_text p2 -> str_replace versions_mark rep (p1 ++ mark_text ++ p2) = p1 ++ rep ++ p2.
Proof.
  intros H1 H2. unfold str_replace, split_str. change versions_mark with mark_text. rewrite split_go_nomatch.
  - rewrite split_go_match by discriminate. rewrite <- (app_nil_r p2) at 1. rewrite split_go_nomatch.
    + cbn [split_go prepend]. cbn [join]. rewrite app_nil_r. rewrite !app_nil_r. reflexivity.
    + intros i Hi. rewrite app_nil_r. destruct (starts mark_text (skipn i p2)) eqn:E; [|reflexivity]. exfalso. apply H2.
      apply starts_spec in E. destruct E as [t E]. exists (firstn i p2), t. rewrite <- E. symmetry. apply firstn_skipn.
  - intros i Hi. destruct (starts mark_text (skipn i p1 ++ mark_text ++ p2)) eqn:E; [|reflexivity]. exfalso.
    apply starts_app_cases in E. destruct E as [[t E]|(q & E & Hq & Hn)].
    + apply H1. exists (firstn i p1), t. rewrite <- E. symmetry. apply firstn_skipn.
    + destruct (skipn_cons_nth i p1 Hi) as (x & t & Hx & _).
      rewrite (@mark_no_overlap (skipn i p1) q E) in Hq; [discriminate| |exact Hn]. rewrite Hx. discriminate.
Qed.
Lemma in_cr_app (a b : list N) : ~ In CR a -> ~ In CR b -> ~ In CR (a ++ b).
Proof. intros H1 H2 H. apply in_app_or in H. destruct H; contradiction. Qed.
Lemma mark_scalar : Forall scalar mark_text.
Proof. unfold mark_text. repeat (constructor; [split; [reflexivity|reflexivity]|]). constructor. Qed.
Lemma rewrite_ok os p1 p2 versions :
  ~ contains mark_text p1 -> ~ contains mark_text p2 -> ~ In CR (p1 ++ p2) -> Forall scalar (p1 ++ versions ++ p2) -> 18 <= zlen versions ->
  forall old, utf8_encode (p1 ++ mark_text ++ p2) = Ok old ->
  exists new, rewrite_configinfo os versions old = Ok new /\ utf8_decode new = Ok (write_nl os (p1 ++ versions ++ p2)).
Proof.
  intros H1 H2 H3 H4 H5 old Ho.
  assert (Hsp : Forall scalar p1 /\ Forall scalar versions /\ Forall scalar p2).
  { apply Forall_app in H4. destruct H4 as [A B]. apply Forall_app in B. tauto. }
  destruct Hsp as (S1 & SV & S2).
  assert (S0 : Forall scalar (p1 ++ mark_text ++ p2)) by (apply Forall_app; split; [assumption|apply Forall_app; split; [apply mark_scalar|assumption]]).
  rewrite (utf8_encode_ok _ S0) in Ho. assert (Eo : old = flat_map utf8_char (p1 ++ mark_text ++ p2)) by congruence. rewrite Eo. clear Ho Eo. unfold rewrite_configinfo. rewrite (utf8_decode_ok _ S0). cbn [bind].
  assert (Hcr : ~ In CR (p1 ++ mark_text ++ p2)).
  { intros H. apply in_app_or in H. destruct H as [H|H]; [apply H3, in_or_app; left; exact H|]. apply in_app_or in H. destruct H as [H|H]; [|apply H3, in_or_app; right; exact H].
    repeat (destruct H as [H|H]; [discriminate|]). destruct H. }
  rewrite univ_nl_id by exact Hcr. rewrite replace_once by assumption.
  assert (SN : Forall scalar (write_nl os (p1 ++ versions ++ p2))) by (apply scalar_write_nl, H4).
  rewrite (utf8_encode_ok _ SN). cbn [bind]. eexists. split; [reflexivity|].
  rewrite zdrop_all; [rewrite app_nil_r; apply utf8_decode_ok, SN|].
  pose proof (write_nl_utf8_len os (p1 ++ versions ++ p2)) as L. rewrite !flat_map_app, !zlen_app in *.
  change (zlen (flat_map utf8_char mark_text)) with 18. pose proof (utf8_len_ge versions). lia.
Qed.
(** without truncation the end of the old bytes stays behind a shorter text *)
Lemma rewrite_tail os versions old new : rewrite_configinfo os versions old = Ok new ->
  exists t text, utf8_decode old = Ok t /\ utf8_encode (write_nl os (str_replace versions_mark versions (univ_nl t))) = Ok text
    /\ new = text ++ zdrop (zlen text) old /\ zlen new = Z.max (zlen text) (zlen old).
Proof.
  unfold rewrite_configinfo. intros H. destruct (utf8_decode old) as [t|e] eqn:E1; cbn [bind] in H; [|discriminate].
  destruct (utf8_encode (write_nl os (str_replace versions_mark versions (univ_nl t)))) as [x|e] eqn:E2; cbn [bind] in H; [|discriminate].
  injection H as <-. exists t, x. repeat split; try reflexivity; try assumption. rewrite zlen_app, zlen_zdrop. pose proof (zlen_nonneg x). lia.
Qed.

Lemma count_unfolded n : 0 <= n < 2 ^ 31 -> unfolded (str_of_int n).
Proof.
  intros H. assert (L : (length (str_of_int n) <= 64)%nat).
  { unfold str_of_int. replace (n <? 0) with false by lia.
    pose proof (@digits_of_len 10 n 10 ltac:(lia) ltac:(lia)) as D. 
    assert (n < 10 ^ Z.of_nat 10) by (change (10 ^ Z.of_nat 10) with 10000000000; change (2 ^ 31) with 2147483648 in H; lia).
    specialize (D ltac:(assumption) ltac:(lia)). lia. }
  pose proof (@str_of_int_chars n) as C. destruct (str_of_int n) as [|c s]; [split; [reflexivity|split; [reflexivity|left; lia]]|].
  assert (Hc : c <> 35%N) by (specialize (C c (or_introl eq_refl)); lia).
  split; [|split; [|left; exact L]].
  - change p_base64 with (35%N :: tl p_base64). cbn [starts]. apply N.eqb_neq in Hc. rewrite N.eqb_sym, Hc. reflexivity.
  - change pp_base64 with (35%N :: tl pp_base64). cbn [starts]. apply N.eqb_neq in Hc. rewrite N.eqb_sym, Hc. reflexivity.
Qed.
(** what b64encode(sha1(..)) is: 28 characters of the base64 alphabet *)
Definition sha1_text (s : list N) : Prop := zlen s = 28 /\ Forall (fun c => b64_alpha c = true \/ c = b64_pad) s.
Lemma b64_char c : b64_alpha c = true \/ c = b64_pad -> c <> 35%N /\ scalar c.
Proof.
  unfold b64_alpha, b64_pad. intros H. assert ((c < 128)%N /\ c <> 35%N) as [H1 H2] by lia. split; [exact H2|].
  unfold scalar, is_surrogate. split; lia.
Qed.
Lemma sha1_unfolded s : sha1_text s -> unfolded s.
Proof.
  intros [L F]. assert (Hl : (length s <= 64)%nat) by (unfold zlen in L; lia).
  destruct s as [|c s]; [split; [reflexivity|split; [reflexivity|left; exact Hl]]|]. inversion F as [|x l Hx Hf]; subst.
  destruct (b64_char c Hx) as [Hc _]. apply N.eqb_neq in Hc. rewrite N.eqb_sym in Hc.
  split; [|split; [|left; exact Hl]].
  - change p_base64 with (35%N :: tl p_base64). cbn [starts]. rewrite Hc. reflexivity.
  - change pp_base64 with (35%N :: tl pp_base64). cbn [starts]. rewrite Hc. reflexivity.
Qed.
Lemma comma_len parts : sumz (map zlen parts) <= zlen (comma_separated parts).
Proof.
  induction parts as [|p parts IH]; [cbn; lia|]. cbn [map sumz fold_right]. change (fold_right Z.add 0 (map zlen parts)) with (sumz (map zlen parts)).
  destruct parts as [|q parts]; [cbn [comma_separated]; cbn; lia|]. cbn [comma_separated] in *. rewrite !zlen_app. change (zlen [44%N]) with 1. lia.
Qed.
Lemma comma_scalar parts : Forall (Forall scalar) parts -> Forall scalar (comma_separated parts).
Proof.
  induction 1 as [|p parts Hp Hs IH]; [constructor|]. cbn [comma_separated]. destruct parts; [exact Hp|].
  apply Forall_app. split; [exact Hp|]. apply Forall_app. split; [repeat constructor|exact IH].
Qed.
Lemma small_scalar c : (c < 55296)%N -> scalar c.
Proof. unfold scalar, is_surrogate. intros. split; lia. Qed.
Lemma versions_line_ok count digest others : others <> [] -> Forall scalar count ->
  Forall (fun e => Forall scalar (fst e) /\ sha1_text (digest (snd e))) others ->
  18 <= zlen (versions_line count digest others) /\ Forall scalar (versions_line count digest others).
Proof.
  intros Hne Hc Hf. unfold versions_line. rewrite !zlen_app. split.
  - pose proof (comma_len (count :: version_fields digest others)) as L. destruct others as [|[n d] others]; [congruence|].
    inversion Hf as [|x l [_ [Hx _]] _]; subst. cbn [snd] in Hx. unfold version_fields in *. cbn [flat_map app map sumz fold_right snd fst] in L.
    rewrite Hx in L.
    match type of L with context [fold_right Z.add 0 (map zlen ?l)] => assert (0 <= fold_right Z.add 0 (map zlen l)) end.
    { generalize (flat_map (fun e : list N * list N => [quoted_name (fst e); digest (snd e)]) others). intros l. induction l as [|a l IH]; cbn [map fold_right]; [lia|]. pose proof (zlen_nonneg a). lia. }
    cbn [flat_map app snd fst]. change (zlen [123%N]) with 1. change (zlen [125%N]) with 1. pose proof (zlen_nonneg count). pose proof (zlen_nonneg (quoted_name n)). lia.
  - apply Forall_app. split; [repeat constructor|]. apply Forall_app. split; [|repeat constructor].
    apply comma_scalar. constructor; [exact Hc|]. unfold version_fields. clear Hne. induction Hf as [|e l [A [_ B]] Hl IH]; [constructor|].
    cbn [flat_map app]. constructor; [|constructor; [|exact IH]].
    + unfold quoted_name. constructor; [apply small_scalar; reflexivity|]. apply Forall_app. split; [exact A|]. constructor; [apply small_scalar; reflexivity|constructor].
    + eapply Forall_impl; [|exact B]. intros c Hc'. apply (b64_char c Hc').
Qed.

(** the compressed folder when configinfo is among the files *)
Definition deflated (deflate : list N -> list N) (es : list entry) : list (list N * list N) := map (fun e => (e_name e, deflate (e_data e))) es.
Lemma filter_perm {A} (f : A -> bool) l l' : Permutation l l' -> Permutation (filter f l) (filter f l').
Proof.
  induction 1 as [|x l l' Hp IH|x y l|l l' l'' Hp1 IH1 Hp2 IH2]; cbn [filter].
  - constructor.
  - destruct (f x); [constructor|]; apply IH.
  - destruct (f x), (f y); try apply Permutation_refl. constructor.
  - etransitivity; eassumption.
Qed.
Lemma filter_others deflate ce es all : e_name ce = configinfo -> ~ In configinfo (map e_name es) -> Permutation (ce :: es) all -> ascending (map e_name all) ->
  exists es', sorted_of es es' /\ filter (fun e => negb (str_eqb (fst e) configinfo)) (deflated deflate all) = deflated deflate es'.
Proof.
  intros Hc Hn Hp Ha. set (keep := fun e : entry => negb (str_eqb (e_name e) configinfo)).
  exists (filter keep all). split; [split|].
  - assert (E : filter keep (ce :: es) = es).
    { cbn [filter]. unfold keep at 1. rewrite Hc, str_eqb_refl. cbn [negb]. clear Hp. induction es as [|e es IH]; [reflexivity|]. cbn [filter map] in *.
      unfold keep at 1. replace (str_eqb (e_name e) configinfo) with false; [cbn [negb]; f_equal; apply IH; intros H; apply Hn; right; exact H|].
      symmetry. apply str_eqb_neq. intros H. apply Hn. left. exact H. }
    rewrite <- E. apply filter_perm, Hp.
  - clear Hp. revert Ha. induction all as [|e all IH]; [auto|]. cbn [map ascending filter]. intros [H1 H2]. destruct (keep e); [|apply IH, H2].
    cbn [map ascending]. split; [|apply IH, H2]. apply Forall_forall. intros n Hin. apply in_map_iff in Hin. destruct Hin as (x & <- & Hx).
    apply filter_In in Hx. apply (proj1 (Forall_forall _ _) H1). apply in_map, Hx.
  - clear. unfold deflated. induction all as [|e all IH]; [reflexivity|]. cbn [map filter fst]. unfold keep at 1. destruct (str_eqb (e_name e) configinfo); cbn [negb map]; [exact IH|rewrite IH; reflexivity].
Qed.
Lemma dget_deflated deflate all e : NoDup (map e_name all) -> In e all -> dget (e_name e) (deflated deflate all) = Some (deflate (e_data e)).
Proof.
  induction all as [|x all IH]; intros Hnd Hin; [destruct Hin|]. inversion Hnd as [|y l Hy Hl]; subst. cbn [deflated map dget].
  destruct (str_eqb (e_name e) (e_name x)) eqn:E.
  - destruct Hin as [->|Hin]; [reflexivity|]. apply str_eqb_spec in E. exfalso. apply Hy. rewrite <- E. apply in_map, Hin.
  - destruct Hin as [->|Hin]; [rewrite str_eqb_refl in E; discriminate|]. apply IH; assumption.
Qed.
Lemma dget_nodes all e : NoDup (map e_name all) -> In e all -> dget (e_name e) (map file_node all) = Some (NFile (e_ctime e) (e_mtime e) (e_data e)).
Proof.
  induction all as [|x all IH]; intros Hnd Hin; [destruct Hin|]. inversion Hnd as [|y l Hy Hl]; subst. cbn [map file_node dget].
  destruct (str_eqb (e_name e) (e_name x)) eqn:E.
  - destruct Hin as [->|Hin]; [reflexivity|]. apply str_eqb_spec in E. exfalso. apply Hy. rewrite <- E. apply in_map, Hin.
  - destruct Hin as [->|Hin]; [rewrite str_eqb_refl in E; discriminate|]. apply IH; assumption.
Qed.
Definition with_data (e : entry) (d : list N) : entry := mkent (e_name e) (e_ctime e) (e_mtime e) d.
Lemma dset_deflated deflate all ce new : NoDup (map e_name all) -> In ce all ->
  dset (e_name ce) (deflate new) (deflated deflate all) = deflated deflate (map (fun e => if str_eqb (e_name e) (e_name ce) then with_data e new else e) all).
Proof.
  induction all as [|x all IH]; intros Hnd Hin; [destruct Hin|]. inversion Hnd as [|y l Hy Hl]; subst. cbn [deflated map dset].
  destruct (str_eqb (e_name ce) (e_name x)) eqn:E.
  - apply str_eqb_spec in E. rewrite <- E, str_eqb_refl. cbn [with_data e_name e_data]. rewrite <- E. f_equal. rewrite map_map.
    apply map_ext_in. intros e He. destruct (str_eqb (e_name e) (e_name ce)) eqn:E2; [|reflexivity]. apply str_eqb_spec in E2. exfalso. apply Hy. rewrite <- E, <- E2. apply in_map, He.
  - destruct Hin as [->|Hin]; [rewrite str_eqb_refl in E; discriminate|].
    replace (str_eqb (e_name x) (e_name ce)) with false by (symmetry; apply str_eqb_neq; apply str_eqb_neq in E; congruence).
    f_equal. apply IH; assumption.
Qed.
Lemma sort_nodes all : NoDup (map e_name all) -> exists all', sorted_of all all' /\ sort_names (map file_node all) = map file_node all'.
Proof.
  intros H. destruct (sort_names_map_ent file_node all (fun _ => eq_refl) H) as (es' & E & S). exists es'. split; [exact S|exact E].
Qed.
Lemma compress_nodes deflate all : compress_entries deflate (map file_node all) = Ok (deflated deflate all).
Proof. induction all as [|e all IH]; [reflexivity|]. cbn [map file_node compress_entries compress_entry bind]. rewrite IH. reflexivity. Qed.

Theorem configinfo_stage deflate digest os ce es p1 p2 all :
  e_name ce = configinfo -> es <> [] -> NoDup (map e_name (ce :: es)) -> Permutation (ce :: es) all -> zlen es < 2 ^ 31 ->
  Forall (fun e => Forall scalar (e_name e) /\ zlen (e_name e) <= 62) es -> (forall d, sha1_text (digest d)) ->
  ~ contains mark_text p1 -> ~ contains mark_text p2 -> ~ In CR (p1 ++ p2) -> Forall scalar (p1 ++ p2) ->
  utf8_encode (p1 ++ mark_text ++ p2) = Ok (e_data ce) ->
  exists es' new all', sorted_of es es'
    /\ utf8_decode new = Ok (write_nl os (p1 ++ versions_line (str_of_int (zlen es)) digest (deflated deflate es') ++ p2))
    /\ sorted_of (with_data ce new :: es) all'
    /\ compress_container deflate digest os (map file_node all) = Ok (deflated deflate all').
Proof.
  intros Hcn Hne Hnd Hp Hcount Hes Hsha H1 H2 H3 H4 Ho.
  assert (Hnd' : NoDup (map e_name all)) by (apply (Permutation_NoDup (Permutation_map e_name Hp)), Hnd).
  destruct (sort_nodes all Hnd') as (alls & S & E).
  assert (Hps : Permutation (ce :: es) alls) by (transitivity all; [exact Hp|apply S]).
  assert (Hn : ~ In configinfo (map e_name es)) by (cbn [map] in Hnd; inversion Hnd as [|x l Hx Hl]; rewrite Hcn in Hx; exact Hx).
  destruct (@filter_others deflate ce es alls Hcn Hn Hps (proj2 S)) as (es' & Ses & Ef).
  assert (Hz : zlen es' = zlen es) by (unfold zlen; rewrite (Permutation_length (proj1 Ses)); reflexivity).
  set (vt := versions_line (str_of_int (zlen es)) digest (deflated deflate es')).
  assert (Hes' : Forall (fun e => Forall scalar (e_name e) /\ zlen (e_name e) <= 62) es') by (apply (Permutation_Forall (proj1 Ses)), Hes).
  assert (Hv : versions_text digest (deflated deflate alls) = Ok vt).
  { unfold vt. replace (zlen es) with (zlen (deflated deflate es')) by (unfold deflated; rewrite zlen_map; exact Hz).
    rewrite <- Ef. apply versions_text_ok.
    - apply count_unfolded. rewrite Ef. unfold deflated. rewrite zlen_map, Hz. pose proof (zlen_nonneg es). lia.
    - rewrite Ef. unfold deflated. apply Forall_map. eapply Forall_impl; [|exact Hes']. cbn [fst snd]. intros e [_ A]. split; [exact A|apply sha1_unfolded, Hsha]. }
  assert (Hline : 18 <= zlen vt /\ Forall scalar vt).
  { apply versions_line_ok.
    - intros Q. apply map_eq_nil in Q. rewrite Q in Ses. apply Hne. apply Permutation_nil. apply Permutation_sym, Ses.
    - apply Forall_forall. intros c Hc. apply str_of_int_chars in Hc. apply small_scalar. lia.
    - unfold deflated. apply Forall_map. eapply Forall_impl; [|exact Hes']. cbn [fst snd]. intros e [A _]. split; [exact A|apply Hsha]. }
  destruct Hline as [L SV].
  assert (Hsc : Forall scalar (p1 ++ vt ++ p2)).
  { apply Forall_app in H4. destruct H4 as [A B]. apply Forall_app. split; [exact A|]. apply Forall_app. split; assumption. }
  destruct (@rewrite_ok os p1 p2 vt H1 H2 H3 Hsc L (e_data ce) Ho) as (new & R & D).
  assert (Hin : In ce alls) by (apply (Permutation_in _ Hps); left; reflexivity).
  assert (Hnda : NoDup (map e_name alls)) by (apply ascending_nodup, S).
  set (upd := fun e => if str_eqb (e_name e) (e_name ce) then with_data e new else e).
  assert (Hupn : forall l, map e_name (map upd l) = map e_name l).
  { intros l. rewrite map_map. apply map_ext. intros e. unfold upd. destruct (str_eqb (e_name e) (e_name ce)); reflexivity. }
  exists es', new, (map upd alls). split; [exact Ses|]. split; [exact D|]. split; [split|].
  - replace (with_data ce new :: es) with (map upd (ce :: es)); [apply Permutation_map, Hps|]. cbn [map]. f_equal.
    + unfold upd. rewrite str_eqb_refl. reflexivity.
    + rewrite <- (map_id es) at 2. apply map_ext_in. intros e He. unfold upd. replace (str_eqb (e_name e) (e_name ce)) with false; [reflexivity|].
      symmetry. apply str_eqb_neq. intros Q. apply Hn. rewrite <- Hcn, <- Q. apply in_map, He.
  - rewrite Hupn. apply S.
  - unfold compress_container. rewrite E, compress_nodes. cbn [bind]. unfold calc_sha1. rewrite <- Hcn at 1.
    rewrite (@dget_deflated deflate alls ce Hnda Hin). rewrite Hv. cbn [bind]. rewrite <- Hcn at 1.
    rewrite (@dget_nodes all ce Hnd' (Permutation_in _ (Permutation_sym (proj1 S)) Hin)). rewrite R. cbn [bind].
    rewrite <- Hcn. rewrite dset_deflated by assumption. reflexivity.
Qed.

Lemma text_not_container t bs : utf8_decode bs = Ok t -> ~ looks_like_container bs.
Proof. intros H [x ->]. cbn in H. discriminate. Qed.

Theorem configinfo_pipeline deflate digest os inf stamp ce es p1 p2 all :
  e_name ce = configinfo -> es <> [] -> NoDup (map e_name (ce :: es)) -> Permutation (ce :: es) all -> zlen es < 2 ^ 31 ->
  Forall (fun e => valid_name (e_name e) /\ zlen (e_name e) <= 62) es -> (forall d, sha1_text (digest d)) ->
  no_signature es -> (forall d, restores_without_gap inf (deflate d) d) ->
  ~ contains mark_text p1 -> ~ contains mark_text p2 -> ~ In CR (p1 ++ p2) -> Forall scalar (p1 ++ p2) ->
  utf8_encode (p1 ++ mark_text ++ p2) = Ok (e_data ce) ->
  (forall n, In n (map e_name (ce :: es)) -> 0 <= fst (stamp n) < 2 ^ 64 /\ 0 <= snd (stamp n) < 2 ^ 64) ->
  exists es' new, sorted_of es es'
    /\ utf8_decode new = Ok (write_nl os (p1 ++ versions_line (str_of_int (zlen es)) digest (deflated deflate es') ++ p2))
    /\ (container_size layout32 (packed_entries stamp (deflated deflate (with_data ce new :: es))) < 2147483647 ->
       exists bytes N, pack deflate digest os stamp [([48%N], map file_node all)] = Ok bytes
       /\ forall sched n fuel depth, (forall l, Permutation l (sched l)) -> (2 <= n)%nat -> (N <= fuel)%nat ->
          exists fo, Permutation (map file_tree (with_data ce new :: es)) fo /\ unpack inf n fuel depth sched bytes = Ok [fo]).
Proof.
  intros Hcn Hne Hnd Hp Hcount Hes Hsha Hsig Hinf H1 H2 H3 H4 Ho Hst.
  destruct (@configinfo_stage deflate digest os ce es p1 p2 all Hcn Hne Hnd Hp Hcount) as (es' & new & all' & S1 & D & S2 & C); try assumption.
  { eapply Forall_impl; [|exact Hes]. intros e [[A _] B]. split; assumption. }
  exists es', new. split; [exact S1|]. split; [exact D|]. intros Hsz.
  assert (Hff : map fst (deflated deflate all') = map e_name all') by (unfold deflated; rewrite map_map; reflexivity).
  assert (Hpn : Permutation (map e_name (ce :: es)) (map e_name all')).
  { change (map e_name (ce :: es)) with (map e_name (with_data ce new :: es)). apply Permutation_map, S2. }
  destruct (@pack_extract_gen deflate digest os stamp _ _ C) as (bytes & N & P & X).
  { intros Q. apply map_eq_nil in Q. rewrite Q in S2. destruct S2 as [S2 _]. apply Permutation_sym, Permutation_nil in S2. discriminate. }
  { rewrite Hff. apply S2. }
  { rewrite Hff. apply (Permutation_Forall Hpn). cbn [map]. constructor.
    - rewrite Hcn. split; [|split].
      + unfold configinfo. repeat (constructor; [apply small_scalar; reflexivity|]). constructor.
      + intros H. repeat (destruct H as [H|H]; [discriminate|]). destruct H.
      + repeat split; discriminate.
    - apply Forall_map. eapply Forall_impl; [|exact Hes]. intros e [A _]. exact A. }
  { rewrite Hff. intros n Hn. apply Hst. apply (Permutation_in _ (Permutation_sym Hpn)), Hn. }
  { erewrite perm_size; [exact Hsz|]. unfold packed_entries, deflated. apply Permutation_map, Permutation_map, Permutation_sym, S2. }
  exists bytes, N. split; [exact P|]. intros sched n fuel depth Hs Hn Hfu. unfold unpack. rewrite X by assumption. cbn [bind decompress_all].
  assert (Hps : Permutation (deflated deflate (with_data ce new :: es)) (sched (deflated deflate all'))).
  { transitivity (deflated deflate all'); [|apply Hs]. unfold deflated. apply Permutation_map, S2. }
  apply Permutation_sym in Hps. unfold deflated in Hps at 2. apply Permutation_map_inv in Hps. destruct Hps as (items & Eq & Hpi).
  assert (Hnd2 : NoDup (map e_name items)).
  { apply (Permutation_NoDup (Permutation_map e_name Hpi)). exact Hnd. }
  exists (map file_tree items). split; [apply Permutation_map, Hpi|].
  assert (Hall : Forall (fun e => ~ looks_like_container (e_data e)) items).
  { apply (Permutation_Forall Hpi). constructor; [exact (@text_not_container _ _ D)|exact Hsig]. }
  rewrite Eq.
  assert (T : forall its fo, Forall (fun e => ~ looks_like_container (e_data e)) its -> NoDup (map fst fo ++ map e_name its) ->
     decompress_tasks inf depth fuel (map (fun e => (e_name e, deflate (e_data e))) its) fo = Ok (fo ++ map file_tree its)).
  { clear - Hinf. induction its as [|e its IH]; intros fo Hf Hnd; [cbn; rewrite app_nil_r; reflexivity|]. inversion Hf as [|x l Hx Hl]; subst.
    cbn [map decompress_tasks]. unfold decompress_task at 1. cbn [fst snd]. rewrite (@inflate_plain inf _ _ (Hinf (e_data e)) Hx). cbn [bind].
    rewrite dset_fresh. 2: { cbn [map] in Hnd. apply NoDup_remove_2 in Hnd. intros H. apply Hnd, in_or_app. left. exact H. }
    rewrite IH; [rewrite <- app_assoc; reflexivity|exact Hl|]. rewrite map_app, <- app_assoc. exact Hnd. }
  rewrite (T items []); [reflexivity|exact Hall|exact Hnd2].
Qed.
