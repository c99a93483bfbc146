(** Proofs about OrgCode.v: splitting and re-assembling modules. *)
From Coq Require Import String.
From Verif Require Import PyBase PyInt PyText Paths OrgCode Spec_Code ContainerToc IndexProofs HeaderProofs.
Set Implicit Arguments.
Open Scope list_scope.
Open Scope N_scope.

(** ** Strings *)
Lemma starts_firstn p : forall s, starts p s = true <-> firstn (length p) s = p.
Proof.
  induction p as [|x p IH]; intros s; [split; reflexivity|]. destruct s as [|y s]; cbn; [split; discriminate|].
  rewrite andb_true_iff, N.eqb_eq, IH. split; [intros [-> ->]; reflexivity|intros H; injection H as -> H; auto].
Qed.
Lemma is_area_include s : starts a_include s = true -> is_area s = Some Include.
Proof. intros H. apply starts_firstn in H. unfold is_area. change 17%nat with (length a_include). rewrite H, str_eqb_refl. reflexivity. Qed.
Lemma is_area_includr s : starts a_includr s = true -> is_area s = Some Includr.
Proof.
  intros H. apply starts_firstn in H. unfold is_area. change 17%nat with (length a_includr). rewrite H, str_eqb_refl.
  reflexivity.
Qed.
Lemma is_area_none s : starts a_include s = false -> starts a_includr s = false -> is_area s = None.
Proof.
  intros H1 H2. unfold is_area. change 17%nat with (length a_include). 
  destruct (str_eqb (firstn (length a_include) s) a_include) eqn:E1; [apply str_eqb_spec, starts_firstn in E1; congruence|].
  change (length a_include) with (length a_includr).
  destruct (str_eqb (firstn (length a_includr) s) a_includr) eqn:E2; [apply str_eqb_spec, starts_firstn in E2; congruence|reflexivity].
Qed.
Lemma is_area_starts s k : is_area s = Some k -> starts a_area s = true.
Proof.
  unfold is_area. destruct (str_eqb (firstn 17 s) a_include) eqn:E1.
  - intros _. apply str_eqb_spec in E1. rewrite <- (firstn_skipn 17 s), E1. reflexivity.
  - destruct (str_eqb (firstn 17 s) a_includr) eqn:E2; [|discriminate]. intros _. apply str_eqb_spec in E2.
    rewrite <- (firstn_skipn 17 s), E2. reflexivity.
Qed.

Lemma rfind_none p s : ~ occurs_in p s -> rfind_sub p s = None.
Proof.
  induction s as [|c s IH]; intros H; cbn [rfind_sub].
  - destruct (starts p []) eqn:E; [|reflexivity]. apply starts_spec in E. destruct E as [t E]. exfalso. apply H. exists [], t. exact E.
  - rewrite IH.
    + destruct (starts p (c :: s)) eqn:E; [|reflexivity]. apply starts_spec in E. destruct E as [t E]. exfalso. apply H. exists [], t. exact E.
    + intros (a & b & E). apply H. exists (c :: a), b. rewrite E. reflexivity.
Qed.
Lemma rfind_last p a c t : ~ occurs_in (c :: p) (p ++ t) -> rfind_sub (c :: p) (a ++ (c :: p) ++ t) = Some (length a).
Proof.
  intros H. induction a as [|x a IH].
  - cbn [app]. cbn [rfind_sub]. rewrite (@rfind_none (c :: p) (p ++ t) H).
    assert (starts (c :: p) (c :: p ++ t) = true) as -> by (change (c :: p ++ t) with ((c :: p) ++ t); apply starts_app). reflexivity.
  - change ((x :: a) ++ (c :: p) ++ t) with (x :: (a ++ (c :: p) ++ t)). cbn [rfind_sub length]. rewrite IH. reflexivity.
Qed.
Lemma mem_ch_in c s : mem_ch c s = true <-> In c s.
Proof.
  unfold mem_ch. rewrite existsb_exists. split.
  - intros (x & H & E). apply N.eqb_eq in E. subst. exact H.
  - intros H. exists c. split; [exact H|apply N.eqb_refl].
Qed.
Lemma rfind_occurs p s n : rfind_sub p s = Some n -> occurs_in p s.
Proof.
  revert n. induction s as [|c s IH]; intros n; cbn [rfind_sub].
  - destruct (starts p []) eqn:E; [|discriminate]. intros _. apply starts_spec in E. destruct E as [t E]. exists [], t. exact E.
  - destruct (rfind_sub p s) as [m|].
    + intros _. destruct (IH m eq_refl) as (a & b & E). exists (c :: a), b. rewrite E. reflexivity.
    + destruct (starts p (c :: s)) eqn:E; [|discriminate]. intros _. apply starts_spec in E. destruct E as [t E]. exists [], t. exact E.
Qed.
Lemma drop_unmarked l : ~ marked l -> drop_directive l = l.
Proof.
  intros H. unfold drop_directive. destruct (rfind_sub a_dyn l) as [n|] eqn:E; [|reflexivity].
  destruct (mem_ch AMP l) eqn:Em; [|reflexivity]. exfalso. apply H. split; [apply rfind_occurs in E; exact E|apply mem_ch_in; exact Em].
Qed.
Lemma drop_marked d rest : In 38 (d ++ [32] ++ s_mark ++ rest) -> ~ occurs_in (32 :: s_mark) (s_mark ++ rest) ->
  drop_directive (d ++ [32] ++ s_mark ++ rest) = s_mark ++ rest.
Proof.
  intros Ha Ho. unfold drop_directive. change ([32] ++ s_mark ++ rest) with ((32 :: s_mark) ++ rest). change a_dyn with (32 :: s_mark).
  rewrite rfind_last by exact Ho. change ((32 :: s_mark) ++ rest) with ([32] ++ s_mark ++ rest).
  assert (mem_ch AMP (d ++ [32] ++ s_mark ++ rest) = true) as -> by (apply mem_ch_in; exact Ha).
  rewrite app_assoc. replace (S (length d)) with (length (d ++ [32])) by (rewrite app_length; cbn; lia).
  rewrite skipn_app, skipn_all, Nat.sub_diag. reflexivity.
Qed.

Lemma rstrip_head c s : is_space c = false -> exists t, rstrip_by is_space (c :: s) = c :: t.
Proof.
  intros Hc. unfold rstrip_by. cbn [rev]. destruct (lstrip_by is_space (rev s ++ [c])) as [|x r] eqn:E.
  - exfalso. assert (H : forall l, lstrip_by is_space (l ++ [c]) <> []).
    { induction l as [|y l IH]; cbn; [rewrite Hc; discriminate|]. destruct (is_space y); [exact IH|discriminate]. }
    exact (H _ E).
  - assert (H : forall l, exists y, lstrip_by is_space (l ++ [c]) = y ++ [c]).
    { induction l as [|y l [z IH]]; cbn; [rewrite Hc; exists []; reflexivity|]. destruct (is_space y); [exists z; exact IH|exists (y :: l); reflexivity]. }
    destruct (H (rev s)) as [y Ey]. rewrite E in Ey. rewrite Ey, rev_app_distr. cbn. exists (rev y). reflexivity.
Qed.
Lemma strip_mark rest : starts s_mark (strip (s_mark ++ rest)) = true.
Proof.
  unfold strip, strip_by. assert (lstrip_by is_space (s_mark ++ rest) = s_mark ++ rest) as -> by reflexivity.
  unfold rstrip_by. rewrite rev_app_distr. 
  assert (H : forall l, exists y, lstrip_by is_space (l ++ rev s_mark) = y ++ rev s_mark).
  { induction l as [|y l [z IH]]; [exists []; reflexivity|]. cbn [app lstrip_by]. destruct (is_space y); [exists z; exact IH|exists (y :: l); reflexivity]. }
  destruct (H (rev rest)) as [y ->]. rewrite rev_app_distr, rev_involutive. apply starts_app.
Qed.

(** ** Headers *)
Definition kind_of (w : bool) : area_kind := if w then Include else Includr.
Definition keyof (o : list N) : list N := hd [] (area_name_parts (strip o)).

Lemma starts_space p s : starts (32 :: p) s = true -> In 32 s.
Proof. intros H. apply starts_spec in H. destruct H as [t ->]. left. reflexivity. Qed.
Lemma split_none d : ~ occurs_in a_sep d -> split_str a_sep d = [d].
Proof.
  intros H. unfold split_str. rewrite <- (app_nil_r d) at 1. rewrite split_go_nomatch; [cbn; rewrite app_nil_r; reflexivity|].
  intros i _. rewrite app_nil_r. destruct (starts a_sep (skipn i d)) eqn:E; [|reflexivity]. apply starts_spec in E. destruct E as [t E].
  exfalso. apply H. exists (firstn i d), t. rewrite <- E. symmetry. apply firstn_skipn.
Qed.
Lemma header_parts o w name d : header o w name d ->
  is_area (strip o) = Some (kind_of w) /\ area_name_parts (strip o) = name :: match d with None => [] | Some x => [x] end.
Proof.
  intros (Hne & Hsp & r & Es & Hr).
  assert (E17 : skipn 17 (strip o) = r) by (rewrite Es; destruct w; reflexivity).
  split.
  - rewrite Es. destruct w; [apply is_area_include|apply is_area_includr]; apply starts_app.
  - unfold area_name_parts. rewrite E17. destruct d as [x|].
    + destruct Hr as (-> & _ & Hx). unfold split_str. rewrite split_go_nomatch.
      * change s_sep with a_sep. rewrite split_go_match by discriminate. fold (split_str a_sep x). rewrite split_none by exact Hx. cbn. rewrite app_nil_r. reflexivity.
      * intros i Hi. destruct (starts a_sep (skipn i name ++ s_sep ++ x)) eqn:E; [|reflexivity]. exfalso. apply Hsp.
        apply starts_spec in E. destruct E as [t E]. destruct (skipn i name) as [|c n] eqn:En.
        -- apply (f_equal (@length N)) in En. rewrite skipn_length in En. cbn in En. lia.
        -- cbn in E. injection E as -> _. rewrite <- (firstn_skipn i name), En. apply in_or_app. right. left. reflexivity.
    + rewrite Hr. apply split_none. intros (a & b & E). apply Hsp. rewrite E. apply in_or_app. right. left. reflexivity.
Qed.
Lemma header_key o w name d : header o w name d -> keyof o = name.
Proof. intros H. unfold keyof. destruct (header_parts H) as [_ ->]. reflexivity. Qed.
Lemma header_opens o w name d : header o w name d -> opens o.
Proof. intros (_ & _ & r & Es & _). unfold opens. rewrite Es. destruct w; reflexivity. Qed.

(** ** One step of the splitter *)
Lemma opens_head l : opens l -> exists r, strip l = HASH :: r.
Proof. unfold opens. destruct (strip l) as [|c r]; [discriminate|]. cbn. intros H. destruct c as [|p]; [discriminate|]. 
  apply andb_true_iff in H. destruct H as [H _]. apply Pos.eqb_eq in H. subst p. exists r. reflexivity. Qed.
Lemma closes_head l : closes l -> exists r, strip l = HASH :: r.
Proof. unfold closes. destruct (strip l) as [|c r]; [discriminate|]. cbn. intros H. destruct c as [|p]; [discriminate|]. 
  apply andb_true_iff in H. destruct H as [H _]. apply Pos.eqb_eq in H. subst p. exists r. reflexivity. Qed.
Lemma closes_not_opens l : closes l -> starts a_area (strip l) = false.
Proof.
  unfold closes. intros H. apply starts_spec in H. destruct H as [t ->]. reflexivity.
Qed.
Lemma plain_step l s : ~ opens l -> ~ closes l -> unpack_line l s = append_cur (drop_directive l) s.
Proof.
  intros Ho Hc. unfold unpack_line. destruct (strip l) as [|c r] eqn:E; [reflexivity|].
  destruct (c =? HASH); [|reflexivity].
  assert (starts a_area (c :: r) = false) as -> by (unfold opens in Ho; rewrite E in Ho; apply not_true_is_false; exact Ho).
  assert (starts a_end (c :: r) = false) as -> by (unfold closes in Hc; rewrite E in Hc; apply not_true_is_false; exact Hc).
  reflexivity.
Qed.
Lemma region_step o s : opens o -> is_area (strip o) = None -> unpack_line o s =
  (s <- append_cur (drop_directive o) s ;; Ok (mkust (u_areas s) ([] :: u_path s) (u_inc s))).
Proof.
  intros Ho Hn. unfold unpack_line. destruct (opens_head Ho) as [r E]. unfold opens in Ho. rewrite E in *. rewrite N.eqb_refl.
  change a_area with s_area. rewrite Ho, Hn. reflexivity.
Qed.
Lemma area_step o k s : opens o -> is_area (strip o) = Some k -> unpack_line o s =
  (s <- append_cur (drop_directive o) s ;;
   Ok (mkust (dset (keyof o) ([], Some k) (u_areas s)) (keyof o :: u_path s) (keyof o :: u_inc s))).
Proof.
  intros Ho Hn. unfold unpack_line, keyof. destruct (opens_head Ho) as [r E]. unfold opens in Ho. rewrite E in *. rewrite N.eqb_refl.
  change a_area with s_area. rewrite Ho, Hn. reflexivity.
Qed.
Lemma close_step c top rest s : closes c -> u_path s = top :: rest -> unpack_line c s =
  (inc <- match top with [] => Ok (u_inc s) | _ => match u_inc s with [] => Err IndexError | _ :: r => Ok r end end ;;
   append_cur (drop_directive c) (mkust (u_areas s) rest inc)).
Proof.
  intros Hc Hp. unfold unpack_line. pose proof (closes_not_opens Hc) as Hn. destruct (closes_head Hc) as [r E]. unfold closes in Hc. rewrite E in *.
  rewrite N.eqb_refl, Hn. change a_end with s_end. rewrite Hc, Hp. reflexivity.
Qed.

Lemma dset_app_in {V} k (v w : V) a x : dget k a = Some w -> dset k v (a ++ x) = dset k v a ++ x.
Proof.
  induction a as [|[k' v'] a IH]; cbn; [discriminate|]. destruct (str_eqb k k'); [reflexivity|].
  intros H. rewrite IH by exact H. reflexivity.
Qed.
Lemma dget_app_in {V} k (w : V) a x : dget k a = Some w -> dget k (a ++ x) = Some w.
Proof. induction a as [|[k' v'] a IH]; cbn; [discriminate|]. destruct (str_eqb k k'); auto. Qed.
Lemma dget_app_notin {V} k (a x : list (list N * V)) : dget k a = None -> dget k (a ++ x) = dget k x.
Proof. induction a as [|[k' v'] a IH]; cbn; [reflexivity|]. destruct (str_eqb k k'); [discriminate|auto]. Qed.

(** ** The whole splitter on a well nested module *)
Fixpoint own (m : code) : list (list N) :=
  match m with
  | End => []
  | Line l rest => drop_directive l :: own rest
  | Region o body c rest => o :: own body ++ c :: own rest
  | Area o body c rest => o :: c :: own rest
  end.
Fixpoint areas_of (m : code) : areas :=
  match m with
  | End => []
  | Line _ rest => areas_of rest
  | Region _ body _ rest => areas_of body ++ areas_of rest
  | Area o body _ rest => (keyof o, (concat (own body), is_area (strip o))) :: areas_of body ++ areas_of rest
  end.
Definition keys (m : code) : list (list N) := map fst (areas_of m).

Lemma names_keys m ns : names m ns -> keys m = ns.
Proof.
  unfold keys. induction 1; cbn [areas_of map]; [reflexivity|assumption|rewrite map_app; congruence|].
  rewrite (header_key H), map_app. cbn [fst]. congruence.
Qed.

Lemma append_cur_ok line s k inc d t : u_inc s = k :: inc -> dget k (u_areas s) = Some (d, t) ->
  append_cur line s = Ok (mkust (dset k (d ++ line, t) (u_areas s)) (u_path s) (u_inc s)).
Proof. intros E Hd. unfold append_cur, append_area. rewrite E, Hd. reflexivity. Qed.

Definition fresh (A : areas) (l : list (list N)) : Prop := NoDup l /\ forall x, In x l -> dget x A = None.
Lemma fresh_dset A k v w l : dget k A = Some w -> fresh A l -> fresh (dset k v A) l.
Proof.
  intros Hk [H1 H2]. split; [exact H1|]. intros x Hx. specialize (H2 x Hx). rewrite dget_dset_other; [exact H2|]. intros ->. congruence.
Qed.
Lemma nodup_app_l {T} (a b : list T) : NoDup (a ++ b) -> NoDup a /\ NoDup b /\ forall x, In x a -> ~ In x b.
Proof.
  induction a as [|x a IH]; cbn; intros H; [split; [constructor|split; [exact H|intros ? []]]|].
  inversion H as [|? ? Hn Hr]; subst. destruct (IH Hr) as (H1 & H2 & H3). split; [|split].
  - constructor; [intros Hx; apply Hn; apply in_or_app; left; exact Hx|exact H1].
  - exact H2.
  - intros y [->|Hy]; [intros Hb; apply Hn; apply in_or_app; right; exact Hb|apply H3; exact Hy].
Qed.
Lemma fresh_app A l1 l2 : fresh A (l1 ++ l2) -> fresh A l1 /\ (forall B, map fst B = l1 -> fresh (A ++ B) l2).
Proof.
  intros [H1 H2]. apply nodup_app_l in H1. destruct H1 as (Ha & Hb & Hd). split.
  - split; [exact Ha|intros x Hx; apply H2; apply in_or_app; left; exact Hx].
  - intros B HB. split; [exact Hb|]. intros x Hx. rewrite dget_app_notin by (apply H2; apply in_or_app; right; exact Hx).
    apply dget_none. unfold dkeys. rewrite HB. intros Hin. exact (Hd x Hin Hx).
Qed.

Lemma keys_app_fresh A v key l : fresh A (key :: l) -> fresh (A ++ [(key, v)]) l.
Proof. intros H. apply (proj2 (@fresh_app A [key] l H)). reflexivity. Qed.
Lemma fresh_cons A key l : fresh A (key :: l) -> dget key A = None.
Proof. intros [_ H]. apply H. left. reflexivity. Qed.
Lemma dset_new {V} key (v : V) A : dget key A = None -> dset key v A = A ++ [(key, v)].
Proof. intros H. apply dset_fresh. apply dget_none. exact H. Qed.

Lemma unpack_code table dd here m : well_nested table dd here m -> forall more A path k inc d t,
  dget k A = Some (d, t) -> fresh A (keys m) ->
  unpack_lines (flatten m ++ more) (mkust A path (k :: inc)) =
  unpack_lines more (mkust (dset k (d ++ concat (own m), t) A ++ areas_of m) path (k :: inc)).
Proof.
  induction 1 as [dd here|dd here l rest Hl Hw IH|dd here o body c rest Ho H1 H2 Hc Hmo Hmc Hb IHb Hr IHr|dd here o body c rest w name d Hh Hc Hmo Hmc Hn Hb IHb Hr IHr];
    intros more A path k inc da t Hk Hf; cbn [flatten own areas_of app].
  - cbn [concat]. rewrite !app_nil_r, dset_same by exact Hk. reflexivity.
  - cbn [unpack_lines]. destruct Hl as (Hl1 & Hl2 & _). rewrite plain_step by assumption.
    rewrite (@append_cur_ok _ (mkust A path (k :: inc)) k inc da t eq_refl Hk). cbn [u_areas u_path u_inc].
    rewrite (IH more _ path k inc (da ++ drop_directive l) t); [|apply dget_dset_same|apply (@fresh_dset A k _ _ _ Hk); exact Hf].
    rewrite dset_dset. cbn [concat]. rewrite <- app_assoc. reflexivity.
  - cbn [unpack_lines]. rewrite region_step by (assumption || apply is_area_none; assumption).
    rewrite (@append_cur_ok _ (mkust A path (k :: inc)) k inc da t eq_refl Hk). cbn [bind u_areas u_path u_inc]. rewrite drop_unmarked by exact Hmo.
    unfold keys in Hf. cbn [areas_of] in Hf. rewrite map_app in Hf.
    assert (Hf1 := @fresh_dset A k (da ++ o, t) _ _ Hk Hf). apply fresh_app in Hf1. destruct Hf1 as [Hf1 Hf2].
    rewrite <- app_assoc. cbn [app].
    rewrite (IHb (c :: flatten rest ++ more) _ ([] :: path) k inc (da ++ o) t); [|apply dget_dset_same|exact Hf1].
    rewrite dset_dset. cbn [unpack_lines]. rewrite (@close_step c [] path) by (exact Hc || reflexivity). cbn [bind u_areas u_inc].
    set (A1 := dset k ((da ++ o) ++ concat (own body), t) A).
    assert (Hk1 : dget k A1 = Some ((da ++ o) ++ concat (own body), t)) by apply dget_dset_same.
    rewrite (@append_cur_ok _ _ k inc ((da ++ o) ++ concat (own body)) t); [|reflexivity|apply dget_app_in; exact Hk1].
    cbn [u_areas u_path u_inc]. rewrite drop_unmarked by exact Hmc. rewrite (@dset_app_in _ k _ _ A1 (areas_of body) Hk1). unfold A1. rewrite dset_dset. clear Hk1.
    rewrite (IHr more _ path k inc (((da ++ o) ++ concat (own body)) ++ c) t).
    + match goal with |- context [dset k ?v (dset k ?v' A ++ ?x)] => rewrite (@dset_app_in _ k v v' (dset k v' A) x) by apply dget_dset_same end.
      rewrite dset_dset. cbn [concat]. rewrite concat_app. cbn [concat]. rewrite <- !app_assoc. reflexivity.
    + apply dget_app_in. apply dget_dset_same.
    + specialize (Hf2 (areas_of body) eq_refl). split; [exact (proj1 Hf2)|]. intros x Hx.
      pose proof (proj2 Hf2 x Hx) as Hg. destruct (str_eq_dec x k) as [->|Hne].
      * rewrite (@dget_app_in _ k (da ++ o, t)) in Hg by apply dget_dset_same. discriminate.
      * destruct (dget x A) as [z|] eqn:Ez.
        -- rewrite (@dget_app_in _ x z) in Hg by (rewrite dget_dset_other by exact Hne; exact Ez). discriminate.
        -- rewrite dget_app_notin in Hg by (rewrite dget_dset_other by exact Hne; exact Ez).
           rewrite dget_app_notin by (rewrite dget_dset_other by exact Hne; exact Ez). exact Hg.
  - cbn [unpack_lines]. destruct (header_parts Hh) as [Ek Ep]. rewrite (@area_step o (kind_of w)) by (exact Ek || exact (header_opens Hh)).
    rewrite (@append_cur_ok _ (mkust A path (k :: inc)) k inc da t eq_refl Hk). cbn [bind u_areas u_path u_inc]. rewrite drop_unmarked by exact Hmo.
    unfold keys in Hf. cbn [areas_of map fst] in Hf. rewrite map_app in Hf.
    set (key := keyof o) in *. set (A1 := dset k (da ++ o, t) A).
    assert (Hk1 : dget k A1 = Some (da ++ o, t)) by apply dget_dset_same.
    assert (Hf1 : fresh A1 (key :: map fst (areas_of body) ++ map fst (areas_of rest))) by (apply (@fresh_dset A k _ _ _ Hk); exact Hf).
    assert (Hkey : dget key A1 = None) by (exact (fresh_cons Hf1)).
    assert (Hkk : key <> k) by (intros E; rewrite E in Hkey; congruence).
    rewrite dset_new by exact Hkey. pose proof (@keys_app_fresh A1 ([], Some (kind_of w)) _ _ Hf1) as Hf2. apply fresh_app in Hf2. destruct Hf2 as [Hf2 Hf3].
    rewrite <- app_assoc. cbn [app].
    assert (Hg : dget key (A1 ++ [(key, ([], Some (kind_of w)))]) = Some ([], Some (kind_of w))).
    { rewrite dget_app_notin by exact Hkey. cbn. rewrite str_eqb_refl. reflexivity. }
    rewrite (IHb (c :: flatten rest ++ more) _ (key :: path) key (k :: inc) [] (Some (kind_of w)) Hg Hf2).
    cbn [unpack_lines]. rewrite (@close_step c key path) by (exact Hc || reflexivity). cbn [u_inc].
    destruct key as [|kc key'] eqn:Enk; [exfalso; pose proof (header_key Hh) as E; destruct Hh as (Hne & _); apply Hne; rewrite <- E; exact Enk|]. rewrite <- Enk in *.
    cbn [bind u_areas].
    assert (Es : dset key ([] ++ concat (own body), Some (kind_of w)) (A1 ++ [(key, ([], Some (kind_of w)))]) = A1 ++ [(key, (concat (own body), is_area (strip o)))]).
    { rewrite Ek. clear - Hkey. induction A1 as [|[k' v'] A1 IH]; cbn in *; [rewrite str_eqb_refl; reflexivity|].
      destruct (str_eqb key k'); [discriminate|]. rewrite IH by exact Hkey. reflexivity. }
    rewrite Es. rewrite <- app_assoc. cbn [app].
    rewrite (@append_cur_ok _ _ k inc (da ++ o) t); [|reflexivity|apply dget_app_in; exact Hk1].
    cbn [u_areas u_path u_inc]. rewrite drop_unmarked by exact Hmc.
    rewrite (@dset_app_in _ k _ _ A1 _ Hk1). unfold A1 at 1. rewrite dset_dset.
    rewrite (IHr more _ path k inc ((da ++ o) ++ c) t).
    + match goal with |- context [dset k ?v (dset k ?v' A ++ ?x)] => rewrite (@dset_app_in _ k v v' (dset k v' A) x) by apply dget_dset_same end.
      rewrite dset_dset. cbn [concat]. rewrite <- !app_assoc. reflexivity.
    + apply dget_app_in. apply dget_dset_same.
    + specialize (Hf3 (areas_of body) eq_refl). split; [exact (proj1 Hf3)|]. intros x Hx.
      pose proof (proj2 Hf3 x Hx) as Hgx. rewrite <- app_assoc in Hgx. cbn [app] in Hgx.
      destruct (str_eq_dec x k) as [->|Hne]; [rewrite (@dget_app_in _ k (da ++ o, t)) in Hgx by exact Hk1; discriminate|].
      unfold A1 in Hgx. destruct (dget x A) as [z|] eqn:Ez.
      * rewrite (@dget_app_in _ x z) in Hgx by (rewrite dget_dset_other by exact Hne; exact Ez). discriminate.
      * rewrite dget_app_notin in Hgx by (rewrite dget_dset_other by exact Hne; exact Ez).
        rewrite dget_app_notin by (rewrite dget_dset_other by exact Hne; exact Ez).
        cbn [dget] in *. destruct (str_eqb x key); [discriminate|exact Hgx].
Qed.
