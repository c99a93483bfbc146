(** Proofs about the walk over a folder of sources. *)
From Coq Require Import String Permutation Lia.
From Verif Require Import PyBase PyText Paths Utf Codecs BraceMore ObjCodeProofs JsonText JsonObj Pipeline UpdateDictProofs Spec_Code OrgCode OrgCodeProofs OrgCodePaths OrgCodePack OrgForm OrgFormProofs Spec_OrgForm OrgFormMain OrgFormDocs OrgFormGood FormJsonGood Spec_OrgTree OrgTree OrgTreePaths.
Set Implicit Arguments.
Open Scope list_scope.
Open Scope N_scope.

(** ** The disk *)
Definition agree (ws : list write) : Prop := forall k c c', In (k, c) ws -> In (k, c') ws -> c = c'.
Lemma write_out ws : forall st k, ~ In k (map fst ws) -> dget k (write_all ws st) = dget k st.
Proof.
  induction ws as [|[x c] ws IH]; intros st k H; [reflexivity|]. cbn [write_all fold_left fst snd]. fold (write_all ws (dset x c st)). rewrite IH by (intros Q; apply H; right; exact Q).
  apply dget_dset_other. intros ->. apply H. left. reflexivity.
Qed.
Lemma write_in ws : forall st k c, agree ws -> In (k, c) ws -> dget k (write_all ws st) = Some c.
Proof.
  induction ws as [|[x d] ws IH]; intros st k c Ha Hi; [destruct Hi|]. cbn [write_all fold_left fst snd]. fold (write_all ws (dset x d st)).
  destruct (in_dec (list_eq_dec N.eq_dec) k (map fst ws)) as [Hk|Hk].
  - apply in_map_iff in Hk. destruct Hk as ([k' c'] & E & Hk). cbn in E. subst k'. assert (c = c') as -> by (apply (Ha k); [exact Hi|right; exact Hk]). apply IH; [|exact Hk]. intros y a b Q1 Q2. apply (Ha y); right; assumption.
  - rewrite write_out by exact Hk. destruct Hi as [Hi|Hi]; [injection Hi as -> ->; apply dget_dset_same|]. exfalso. apply Hk. apply in_map_iff. exists (k, c). split; [reflexivity|exact Hi].
Qed.
Lemma write_nodup ws : forall st : disk, NoDup (map fst st) -> NoDup (map fst (write_all ws st)).
Proof. induction ws as [|[x c] ws IH]; intros st H; [exact H|]. cbn [write_all fold_left fst snd]. apply IH. apply nodup_dset. exact H. Qed.
Lemma write_all_app a b st : write_all (a ++ b) st = write_all b (write_all a st).
Proof. apply fold_left_app. Qed.
Lemma clear_get dir st k c : NoDup (map fst st) -> dget k st = Some c -> below dir k = None -> dget k (clear_dir dir st) = Some c.
Proof.
  intros Hn. unfold clear_dir. induction st as [|[x d] st IH]; [discriminate|]. cbn [map] in Hn. inversion Hn as [|? ? N1 N2]; subst. cbn [dget filter fst]. destruct (str_eqb k x) eqn:E.
  - apply str_eqb_spec in E. subst x. intros Q Hb. injection Q as ->. rewrite Hb. cbn [dget]. rewrite str_eqb_refl. reflexivity.
  - intros Q Hb. destruct (below dir x); [exact (IH N2 Q Hb)|]. cbn [dget]. rewrite E. exact (IH N2 Q Hb).
Qed.
Lemma clear_in dir st k c : In (k, c) (clear_dir dir st) -> In (k, c) st /\ below dir k = None.
Proof. unfold clear_dir. intros H. apply filter_In in H. cbn [fst] in H. destruct H as [H1 H2]. split; [exact H1|]. destruct (below dir k); [discriminate|reflexivity]. Qed.
Lemma clear_nodup dir (st : disk) : NoDup (map fst st) -> NoDup (map fst (clear_dir dir st)).
Proof.
  intros H. unfold clear_dir. induction st as [|[x c] st IH]; [constructor|]. cbn [map] in H. inversion H as [|? ? N1 N2]; subst. cbn [filter fst]. destruct (below dir x); [exact (IH N2)|]. cbn [map fst]. constructor; [|exact (IH N2)].
  intros Hi. apply N1. apply in_map_iff in Hi. destruct Hi as (e & E & Hi). apply filter_In in Hi. apply in_map_iff. exists e. split; [exact E|apply Hi].
Qed.
Lemma clear_none dir st k : dget k st = None -> dget k (clear_dir dir st) = None.
Proof. unfold clear_dir. induction st as [|[x c] st IH]; [reflexivity|]. cbn [dget filter fst]. destruct (str_eqb k x) eqn:E; [discriminate|]. intros H. destruct (below dir x); [exact (IH H)|]. cbn [dget]. rewrite E. exact (IH H). Qed.
Lemma clear_same dir (st : disk) k : NoDup (map fst st) -> below dir k = None -> dget k (clear_dir dir st) = dget k st.
Proof. intros Hn Hb. destruct (dget k st) as [c|] eqn:E; [apply clear_get; assumption|apply clear_none; exact E]. Qed.
Lemma texts_get st k bs t : NoDup (map fst st) -> dget k st = Some bs -> text_of_bytes bs = Ok t -> dget k (texts st) = Some t.
Proof.
  intros Hn. induction st as [|[x d] st IH]; [discriminate|]. cbn [map] in Hn. inversion Hn as [|? ? N1 N2]; subst. cbn [dget texts]. destruct (str_eqb k x) eqn:E.
  - apply str_eqb_spec in E. subst x. intros Q Ht. injection Q as ->. rewrite Ht. cbn [dget]. rewrite str_eqb_refl. reflexivity.
  - intros Q Ht. destruct (text_of_bytes d); [|exact (IH N2 Q Ht)]. cbn [dget]. rewrite E. exact (IH N2 Q Ht).
Qed.
Lemma all_ok_in A B (f : A -> res B) l : forall ys, all_ok f l = Ok ys -> (forall y, In y ys <-> exists x, In x l /\ f x = Ok y) /\ (forall x, In x l -> exists y, f x = Ok y).
Proof.
  induction l as [|x l IH]; intros ys H; cbn [all_ok] in H.
  - injection H as <-. split; [intros y; split; [intros []|intros (x & [] & _)]|intros x []].
  - destruct (f x) as [y0|] eqn:E; [|discriminate]. cbn [bind] in H. destruct (all_ok f l) as [ys0|]; [|discriminate]. cbn [bind] in H. injection H as <-. destruct (IH _ eq_refl) as [I1 I2]. split.
    + intros y. split.
      * intros [<-|Hy]; [exists x; split; [left; reflexivity|exact E]|]. apply I1 in Hy. destruct Hy as (z & Hz & Ez). exists z. split; [right; exact Hz|exact Ez].
      * intros (z & [<-|Hz] & Ez); [left; congruence|]. right. apply I1. exists z. split; assumption.
    + intros z [<-|Hz]; [exists y0; exact E|exact (I2 z Hz)].
Qed.
Lemma all_ok_ok A B (f : A -> res B) l : (forall x, In x l -> exists y, f x = Ok y) -> exists ys, all_ok f l = Ok ys.
Proof.
  induction l as [|x l IH]; intros H; [exists []; reflexivity|]. cbn [all_ok]. destruct (H x (or_introl eq_refl)) as (y & ->). cbn [bind]. destruct IH as (ys & ->); [intros z Hz; apply H; right; exact Hz|]. cbn [bind]. exists (y :: ys). reflexivity.
Qed.

(** ** The extraction *)
Section Org.
Variable os : platform.
Variable table : list (list N * list N).
Variable fuel : nat.
Definition writes_of (dest : list N) (f : entry) : res (list write) :=
  match kind_of (e_name f) with Plain => Ok [plain_write dest f] | Code => code_writes os table dest f | Elems => elem_writes os table fuel dest f end.
Lemma organize_inv ordc orde dest src st st' : reorders ordc -> reorders orde -> organize os table fuel ordc orde dest src st = Ok st' ->
  exists ws, st' = write_all ws (clear_dir dest st) /\ (forall w, In w ws <-> exists f l, In f (walk_all src) /\ writes_of dest f = Ok l /\ In w l) /\ (forall f, In f (walk_all src) -> exists l, writes_of dest f = Ok l).
Proof.
  intros Hc He H. unfold organize in H. destruct (all_ok (code_writes os table dest) _) as [cw|] eqn:Ec; [|discriminate]. cbn [bind] in H. destruct (all_ok (elem_writes os table fuel dest) _) as [ew|] eqn:Ee; [|discriminate]. cbn [bind] in H. injection H as <-.
  destruct (all_ok_in _ _ Ec) as [C1 C2]. destruct (all_ok_in _ _ Ee) as [E1 E2].
  exists (map (plain_write dest) (filter is_plain (walk_all src)) ++ ordc (concat cw) ++ orde (concat ew)). split; [rewrite !write_all_app; reflexivity|]. split.
  - intros w. rewrite !in_app_iff. split.
    + intros [H|[H|H]].
      * apply in_map_iff in H. destruct H as (f & <- & Hf). apply filter_In in Hf. destruct Hf as [Hf Hk]. exists f, [plain_write dest f]. split; [exact Hf|]. split; [|left; reflexivity]. unfold writes_of, is_plain in *. destruct (kind_of (e_name f)); try discriminate. reflexivity.
      * apply (Permutation_in _ (Permutation_sym (Hc _))) in H. apply in_concat in H. destruct H as (l & Hl & Hw). apply C1 in Hl. destruct Hl as (f & Hf & El). apply filter_In in Hf. destruct Hf as [Hf Hk]. exists f, l. split; [exact Hf|]. split; [|exact Hw]. unfold writes_of, is_code in *. destruct (kind_of (e_name f)); try discriminate. exact El.
      * apply (Permutation_in _ (Permutation_sym (He _))) in H. apply in_concat in H. destruct H as (l & Hl & Hw). apply E1 in Hl. destruct Hl as (f & Hf & El). apply filter_In in Hf. destruct Hf as [Hf Hk]. exists f, l. split; [exact Hf|]. split; [|exact Hw]. unfold writes_of, is_elems in *. destruct (kind_of (e_name f)); try discriminate. exact El.
    + intros (f & l & Hf & Hl & Hw). unfold writes_of in Hl. destruct (kind_of (e_name f)) eqn:Ek.
      * right. left. apply (Permutation_in _ (Hc _)). apply in_concat. exists l. split; [|exact Hw]. apply C1. exists f. split; [|exact Hl]. apply filter_In. split; [exact Hf|]. unfold is_code. rewrite Ek. reflexivity.
      * right. right. apply (Permutation_in _ (He _)). apply in_concat. exists l. split; [|exact Hw]. apply E1. exists f. split; [|exact Hl]. apply filter_In. split; [exact Hf|]. unfold is_elems. rewrite Ek. reflexivity.
      * left. injection Hl as <-. destruct Hw as [<-|[]]. apply in_map_iff. exists f. split; [reflexivity|]. apply filter_In. split; [exact Hf|]. unfold is_plain. rewrite Ek. reflexivity.
  - intros f Hf. unfold writes_of. destruct (kind_of (e_name f)) eqn:Ek; [apply C2|apply E2|eexists; reflexivity]; apply filter_In; (split; [exact Hf|]); unfold is_code, is_elems; rewrite Ek; reflexivity.
Qed.
Lemma organize_single dest p n b l : fits p -> fit_name n -> writes_of dest (mkentry (join [47] p) n b) = Ok l -> organize os table fuel (fun x => x) (fun x => x) dest (single p n b) [] = Ok (write_all l []).
Proof.
  intros Hp Hn H. unfold organize, walk_all. change (@nil N) with (join [47] (@nil (list N))). rewrite (walk_single b (Forall_nil _) Hp Hn). cbn [app]. unfold writes_of, is_plain, is_code, is_elems in *. cbn [filter e_name] in *. destruct (kind_of n); cbn [map all_ok bind].
  - rewrite H. cbn [bind concat app clear_dir filter write_all fold_left]. rewrite app_nil_r. reflexivity.
  - rewrite H. cbn [bind concat app clear_dir filter write_all fold_left]. rewrite app_nil_r. reflexivity.
  - injection H as <-. reflexivity.
Qed.

(** ** Text *)
Lemma text_back t bs : Forall scalar t -> ~ In CR t -> text_file os t bs -> text_of_bytes bs = Ok t.
Proof. intros Hs Hc H. unfold text_of_bytes. rewrite (@utf8_encode_decode _ _ (scalar_write_nl os Hs) H), univ_write_nocr by exact Hc. reflexivity. Qed.
Lemma text_bytes_file t bs : text_bytes os t = Ok bs <-> text_file os t bs.
Proof. unfold text_bytes, text_file. destruct (utf8_encode (write_nl os t)); split; intros H; try discriminate; congruence. Qed.
Lemma write_nl_scalar t : Forall scalar (write_nl os t) -> Forall scalar t.
Proof.
  intros H. rewrite Forall_forall in *. intros c Hc. destruct (N.eq_dec c LF) as [->|Hne]; [split; reflexivity|]. apply H. unfold write_nl. apply in_flat_map. exists c. split; [exact Hc|]. destruct (c =? LF) eqn:E; [apply N.eqb_eq in E; contradiction|left; reflexivity].
Qed.
Lemma write_nl_first t : (forall r, t <> 65279 :: r) -> forall r, write_nl os t <> 65279 :: r.
Proof.
  intros H r E. destruct t as [|c t]; [discriminate|]. cbn in E. destruct (c =? LF) eqn:E2; [|injection E as -> _; exact (H _ eq_refl)]. destruct os; cbn in E; discriminate.
Qed.
Lemma sig_text t bs : Forall scalar t -> ~ In CR t -> text_file os t (bare bs) -> utf8sig_decode bs = Ok (write_nl os t).
Proof. intros Hs Hc H. exact (@utf8_encode_decode _ _ (scalar_write_nl os Hs) H). Qed.
Lemma no_mark t bs : Forall scalar t -> (forall r, t <> 65279 :: r) -> text_file os t bs -> bare bs = bs.
Proof.
  intros Hs Hb H. pose proof (@utf8_encode_decode _ _ (scalar_write_nl os Hs) H) as Hd. unfold bare. destruct (starts bom bs) eqn:E; [|reflexivity].
  apply starts_spec in E. destruct E as [r ->]. change bom with utf8_bom in Hd. apply bom_text in Hd. destruct Hd as (t' & E & _). exfalso. exact (write_nl_first Hb E).
Qed.
Lemma drop_chars l c : In c (drop_directive l) -> In c l.
Proof. unfold drop_directive. destruct (rfind_sub a_dyn l) as [i|]; [|exact (fun h => h)]. destruct (mem_ch AMP l); [|exact (fun h => h)]. intros H. rewrite <- (firstn_skipn (S i) l). apply in_or_app. right. exact H. Qed.
Lemma own_chars m c : In c (concat (own m)) -> In c (text_of m).
Proof.
  unfold text_of. induction m as [|l rest IH|o body IHb cl rest IH|o body IHb cl rest IH]; cbn [own flatten concat]; [exact (fun h => h)| | |]; rewrite !in_app_iff.
  - intros [H|H]; [left; apply drop_chars; exact H|right; exact (IH H)].
  - rewrite !concat_app, !in_app_iff. cbn [concat]. rewrite !in_app_iff. intuition.
  - rewrite !concat_app, !in_app_iff. cbn [concat]. rewrite !in_app_iff. intuition.
Qed.
Lemma area_chars m k data kd c : In (k, (data, kd)) (areas_of m) -> In c data -> In c (text_of m).
Proof.
  unfold text_of. revert k data kd c. induction m as [|l rest IH|o body IHb cl rest IH|o body IHb cl rest IH]; intros k data kd c Hi Hc; cbn [areas_of flatten concat] in *; [destruct Hi| | |]; rewrite ?in_app_iff.
  - right. exact (IH _ _ _ _ Hi Hc).
  - rewrite concat_app, in_app_iff. cbn [concat]. rewrite in_app_iff. apply in_app_or in Hi. destruct Hi as [Hi|Hi]; [right; left; exact (IHb _ _ _ _ Hi Hc)|right; right; right; exact (IH _ _ _ _ Hi Hc)].
  - rewrite concat_app, in_app_iff. cbn [concat]. rewrite in_app_iff. destruct Hi as [Hi|Hi]; [injection Hi as _ <- _; right; left; exact (own_chars body _ Hc)|]. apply in_app_or in Hi. destruct Hi as [Hi|Hi]; [right; left; exact (IHb _ _ _ _ Hi Hc)|right; right; right; exact (IH _ _ _ _ Hi Hc)].
Qed.

(** ** One module *)
Definition area_key (dest : list N) (f : entry) (elem : list N) : list N :=
  if str_eqb elem k_root then file_key dest (e_path f) (e_name f) else let '(p, n) := parse_include_path elem (e_path f) table false in file_key dest p n.
Definition skipped (elem : list N) (kd : option area_kind) : bool := negb (str_eqb elem k_root) && match kd with Some Includr => true | _ => false end.
Lemma area_writes_in dest f a : forall ws, area_writes os table dest f a = Ok ws ->
  (forall k data kd, In (k, (data, kd)) a -> skipped k kd = false -> exists bs, text_file os data bs /\ In (area_key dest f k, bs) ws) /\
  map fst ws = map (area_key dest f) (map fst (filter (fun e => negb (skipped (fst e) (snd (snd e)))) a)).
Proof.
  induction a as [|[k [data kd]] a IH]; intros ws H; cbn [area_writes] in H; [injection H as <-; split; [intros ? ? ? []|reflexivity]|].
  cbn [filter fst snd]. fold (skipped k kd) in H. destruct (skipped k kd) eqn:Es; cbn [negb].
  - destruct (IH _ H) as [I1 I2]. split; [|exact I2]. intros k' data' kd' [Hi|Hi] Hs; [injection Hi as <- <- <-; congruence|exact (I1 _ _ _ Hi Hs)].
  - destruct (text_bytes os data) as [bs|] eqn:Eb; [|discriminate]. cbn [bind] in H. destruct (area_writes os table dest f a) as [r|]; [|discriminate]. cbn [bind] in H. injection H as <-. destruct (IH _ eq_refl) as [I1 I2]. split.
    + intros k' data' kd' [Hi|Hi] Hs; [injection Hi as <- <- <-; exists bs; split; [apply text_bytes_file; exact Eb|left; reflexivity]|]. destruct (I1 _ _ _ Hi Hs) as (bs' & Q1 & Q2). exists bs'. split; [exact Q1|right; exact Q2].
    + cbn [map fst]. rewrite I2. reflexivity.
Qed.
Local Notation module_like := (good_module os table fuel).
Lemma nodup_map_filter A B (g : A -> B) (h : A -> bool) l : NoDup (map g l) -> NoDup (map g (filter h l)).
Proof.
  induction l as [|x l IH]; intros H; [constructor|]. cbn [map] in H. inversion H as [|? ? N1 N2]; subst. cbn [filter]. destruct (h x); [|exact (IH N2)]. cbn [map]. constructor; [|exact (IH N2)].
  intros Hi. apply N1. apply in_map_iff in Hi. destruct Hi as (y & E & Hi). apply filter_In in Hi. apply in_map_iff. exists y. split; [exact E|apply Hi].
Qed.
Section Module.
Variables (dest : list N) (p : list (list N)) (n b : list N) (m : code) (ns : list (list N)).
Hypothesis Hp : fits p.
Hypothesis Hn : fit_name n.
Hypothesis H : module_like dest p n b m ns.
Let f := mkentry (join [47] p) n b.
Let D := enter [] dest.
Lemma module_areas : OrgCode.unpack (text_of m) = Ok ((k_root, (concat (own m), None)) :: areas_of m).
Proof.
  destruct H as (_ & _ & _ & _ & H5 & H6 & H7 & H8 & _ & H10 & _). apply (@unpack_text table); [exact H5|exact H6|]. rewrite (names_keys H7). constructor; [exact H8|]. apply NoDup_cons_iff in H10. exact (NoDup_map_inv _ _ (proj2 H10)).
Qed.
Lemma module_key k : In k ns -> area_key dest f k = written (include_file table false D (join [47] p) k).
Proof.
  intros Hk. destruct H as (_ & _ & _ & _ & _ & _ & _ & H8 & H9 & _). unfold area_key. destruct (str_eqb k k_root) eqn:E; [apply str_eqb_spec in E; subst; contradiction|].
  pose proof (@include_place k (e_path f) table false dest (join_rel Hp) (H9 k Hk)) as Q. cbv zeta in Q. destruct (parse_include_path k (e_path f) table false). exact Q.
Qed.
Lemma module_own_key : area_key dest f k_root = written (D ++ p ++ [n]).
Proof. unfold area_key. rewrite str_eqb_refl. exact (own_key dest Hp Hn). Qed.
Lemma module_writes ws : code_writes os table dest f = Ok ws ->
  (exists bs, text_file os (concat (own m)) bs /\ In (written (D ++ p ++ [n]), bs) ws) /\
  (forall k data kd, In (k, (data, kd)) (areas_of m) -> kd <> Some Includr -> exists bs, text_file os data bs /\ In (written (include_file table false D (join [47] p) k), bs) ws) /\
  NoDup (map fst ws) /\ (forall x, In x (map fst ws) -> exists g, x = written g /\ noslash g /\ g <> []).
Proof.
  intros Hw. pose proof module_areas as Ha. destruct H as (H1 & H2 & H3 & H4 & H5 & H6 & H7 & H8 & H9 & H10 & H11). unfold code_writes in Hw. cbn [e_bytes f] in Hw. rewrite (@sig_text _ _ H2 H3 H1) in Hw. rewrite univ_write_nocr in Hw by exact H3. rewrite Ha in Hw.
  destruct (area_writes_in _ _ _ Hw) as [W1 W2]. pose proof (names_keys H7) as Ek. 
  assert (Kin : forall k data kd, In (k, (data, kd)) (areas_of m) -> In k ns) by (intros k data kd Hi; rewrite <- Ek; apply in_map_iff; exists (k, (data, kd)); split; [reflexivity|exact Hi]).
  assert (Hnr : forall k, In k ns -> str_eqb k k_root = false). { intros k Hk. destruct (str_eqb k k_root) eqn:E; [|reflexivity]. apply str_eqb_spec in E. subst. contradiction. }
  split; [|split; [|split]].
  - destruct (W1 k_root _ _ (or_introl eq_refl)) as (bs & B1 & B2); [reflexivity|]. exists bs. split; [exact B1|]. rewrite <- module_own_key. exact B2.
  - intros k data kd Hi Hk. destruct (W1 k data kd (or_intror Hi)) as (bs & B1 & B2).
    { unfold skipped. rewrite (Hnr k (Kin _ _ _ Hi)). destruct kd as [[|]|]; try reflexivity. congruence. }
    exists bs. split; [exact B1|]. rewrite <- (@module_key k (Kin _ _ _ Hi)). exact B2.
  - rewrite W2. cbn [filter map fst snd skipped]. change (skipped k_root None) with false. cbn [negb map fst]. rewrite map_map.
    assert (Q : NoDup (map (area_key dest f) (k_root :: keys m))).
    { cbn [map]. rewrite Ek, module_own_key. rewrite (map_ext_in _ (fun k => written (include_file table false D (join [47] p) k)) ns) by (intros k Hk; exact (@module_key k Hk)). rewrite <- (map_map (include_file table false D (join [47] p)) written).
      change (NoDup (map written ((D ++ p ++ [n]) :: map (include_file table false D (join [47] p)) ns))). apply nodup_written; [|exact H10]. constructor; [exact (own_good dest Hp Hn)|]. apply Forall_forall. intros g Hg. apply in_map_iff in Hg. destruct Hg as (k & <- & Hk).
      rewrite <- include_bsl. apply include_good; [intros Q; cbn in Q; intuition discriminate|exact (H9 k Hk)]. }
    cbn [map] in Q. inversion Q as [|? ? Q1 Q2]; subst. constructor.
    + intros Hi. apply Q1. apply in_map_iff in Hi. destruct Hi as (e & E & Hi). apply filter_In in Hi. rewrite <- E. apply in_map_iff. exists (fst e). split; [reflexivity|]. apply in_map. apply Hi.
    + rewrite <- map_map. unfold keys in Q2. rewrite map_map in *. apply nodup_map_filter. exact Q2.
  - intros x Hx. rewrite W2 in Hx. cbn [filter map fst snd] in Hx. change (skipped k_root None) with false in Hx. cbn [negb map fst] in Hx. destruct Hx as [<-|Hx].
    + exists (D ++ p ++ [n]). split; [exact module_own_key|]. exact (own_good dest Hp Hn).
    + apply in_map_iff in Hx. destruct Hx as (k & <- & Hx). apply in_map_iff in Hx. destruct Hx as ([k' [data kd]] & E & Hx). cbn in E. subst k'. apply filter_In in Hx. destruct Hx as [Hx _]. pose proof (Kin _ _ _ Hx) as Hk.
      exists (include_file table false D (join [47] p) k). split; [exact (@module_key k Hk)|]. rewrite <- include_bsl. apply include_good; [intros Q; cbn in Q; intuition discriminate|exact (H9 k Hk)].
Qed.
Lemma module_built (st : disk) ws : code_writes os table dest f = Ok ws -> NoDup (map fst st) -> (forall x c, In (x, c) ws -> dget x st = Some c) ->
  (forall k data, In (k, (data, Some Includr)) (areas_of m) -> exists bs, text_file os data bs /\ dget (written (include_file table false D (join [47] p) k)) st = Some bs) ->
  pack_file fuel (texts st) dest (join [47] p) n table None = Ok (text_of m).
Proof.
  intros Hw Hst Hin Hro. destruct (module_writes Hw) as ((b0 & B1 & B2) & W & _). destruct H as (H1 & H2 & H3 & H4 & H5 & H6 & H7 & H8 & H9 & H10 & H11).
  assert (Tx : forall k c t, dget k st = Some c -> text_file os t c -> (forall x, In x t -> In x (text_of m)) -> dget k (texts st) = Some t).
  { intros k c t Hk Ht Hs. apply texts_get with (bs := c); [exact Hst|exact Hk|]. apply text_back; [|intros Q; apply H3, Hs; exact Q|exact Ht]. rewrite Forall_forall in *. intros x Hx. apply H2, Hs. exact Hx. }
  destruct fuel as [|fu] eqn:Ef; [lia|]. rewrite pack_file_go. rewrite own_key by assumption. fold D. rewrite (@Tx _ _ _ (Hin _ _ B2) B1 (own_chars m)).
  rewrite lines_proper by (apply (sub_proper (own_sub H5)); exact H6). rewrite <- (app_nil_r (own m)). rewrite (@pack_code _ dest (join [47] p) table _ _ _ H5).
  - cbn [pack_go bind]. rewrite app_nil_r. reflexivity.
  - rewrite (names_keys H7). lia.
  - reflexivity.
  - intros k data kd Hi. assert (Hk : In k ns) by (rewrite <- (names_keys H7); apply in_map_iff; exists (k, (data, kd)); split; [reflexivity|exact Hi]).
    unfold OrgCodePack.place. rewrite include_place by (first [apply join_rel; exact Hp | exact (H9 k Hk)]). fold D.
    assert (exists bs, text_file os data bs /\ dget (written (include_file table false D (join [47] p) k)) st = Some bs) as (bs & Q1 & Q2).
    { destruct kd as [[|]|]; [|exact (Hro _ _ Hi)|]; destruct (W _ _ _ Hi) as (bs & Q1 & Q2); try discriminate; exists bs; (split; [exact Q1|exact (Hin _ _ Q2)]). }
    exact (Tx _ _ _ Q2 Q1 (fun x => @area_chars m k data kd x Hi)).
  - exact H6.
  - intros k Hk. rewrite (names_keys H7) in Hk. exact (H9 k Hk).
Qed.
End Module.
End Org.
