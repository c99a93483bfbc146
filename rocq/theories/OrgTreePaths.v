(** Paths in a whole folder of sources. *)
From Coq Require Import String Permutation Lia.
From Verif Require Import PyBase PyText Paths Utf Pipeline UpdateDictProofs DescentProofs Spec_Code OrgCode OrgCodeProofs OrgCodePaths OrgCodePack Spec_OrgTree OrgTree.
Set Implicit Arguments.
Open Scope list_scope.
Open Scope N_scope.

Definition noslash (f : list (list N)) : Prop := Forall (fun e => ~ In slash e) f.
Definition fits (p : list (list N)) : Prop := Forall fit_name p.
Lemma fits_noslash p : fits p -> noslash p.
Proof. apply Forall_impl. intros e (_ & H & _). exact H. Qed.
Lemma walk_fit f e : fit_name e -> Spec_Code.walk f e = f ++ [e].
Proof.
  intros (H1 & _ & H3 & H4). rewrite <- (rev_involutive f) at 1. rewrite <- (astep_walk (rev f) e). unfold astep. destruct e as [|a e]; [congruence|].
  destruct (str_eqb (a :: e) dot1) eqn:E1; [apply str_eqb_spec in E1; contradiction|]. destruct (str_eqb (a :: e) dot2) eqn:E2; [apply str_eqb_spec in E2; contradiction|]. cbn [rev]. rewrite rev_involutive. reflexivity.
Qed.
Lemma walks_fit p : fits p -> forall f, fold_left Spec_Code.walk p f = f ++ p.
Proof. induction 1 as [|e p He _ IH]; intros f; cbn [fold_left]; [rewrite app_nil_r; reflexivity|]. rewrite walk_fit by exact He. rewrite IH, <- app_assoc. reflexivity. Qed.
Lemma enter_join_names f p : fits p -> enter f (join [47] p) = f ++ p.
Proof.
  intros H. unfold enter. destruct p as [|x p]; [cbn [join split_ch fold_left]; rewrite app_nil_r; reflexivity|].
  rewrite split_ch_join by (first [discriminate | exact (fits_noslash H)]). apply walks_fit. exact H.
Qed.
Lemma join_rel p : fits p -> is_abs (join [47] p) = false.
Proof.
  intros H. destruct H as [|x p (Hx & Hs & _) H]; [reflexivity|]. destruct x as [|c x]; [congruence|]. assert (c <> slash) by (intros ->; apply Hs; left; reflexivity).
  unfold is_abs. destruct p; cbn [join app starts]; (destruct (slash =? c) eqn:E; [apply N.eqb_eq in E; congruence|reflexivity]).
Qed.
Lemma own_key dest p n : fits p -> fit_name n -> file_key dest (join [47] p) n = written (enter [] dest ++ p ++ [n]).
Proof. intros Hp (_ & Hn & _). rewrite file_key_written by (first [apply join_rel; exact Hp | exact Hn]). rewrite enter_join_names by exact Hp. rewrite <- app_assoc. reflexivity. Qed.
Lemma join_step p n : fits p -> fit_name n -> path_join (join [47] p) n = join [47] (p ++ [n]).
Proof.
  intros Hp (Hn & Hs & _). unfold path_join. assert (starts [slash] n = false) as ->. { apply (@noslash_abs n Hs). }
  destruct p as [|x p]; [reflexivity|]. rewrite join_app by discriminate. change (join [47] [n]) with n. destruct (join [47] (x :: p)) as [|c j] eqn:E.
  { exfalso. inversion Hp as [|? ? (Hx & _) _]; subst. destruct x; [congruence|]. destruct p; discriminate. }
  assert (ends [slash] (c :: j) = false) as ->.
  { rewrite <- E. destruct (@exists_last _ (x :: p)) as (l & y & E2); [discriminate|]. rewrite E2 in *. unfold fits in Hp. apply Forall_app in Hp. destruct Hp as [_ Hy]. inversion Hy as [|? ? (Y1 & Y2 & _) _]; subst.
    pose proof (@nice_join_end l y Y1 Y2) as Q. destruct (ends [slash] (join [47] (l ++ [y]))) eqn:Q2; [|reflexivity]. apply ends_spec in Q2. destruct Q2 as [t Q2].
    assert (ends [slash] (slash :: join [47] (l ++ [y])) = true) by (apply ends_spec; exists (slash :: t); rewrite Q2; reflexivity). change [47] with [slash] in *. congruence. }
  cbn [orb]. rewrite <- E. reflexivity.
Qed.
Lemma good_nice f : nice f -> noslash f.
Proof. apply Forall_impl. intros e [_ H]. exact H. Qed.
Lemma dest_nice dest : nice (enter [] dest). Proof. apply nice_enter. constructor. Qed.
Lemma own_good dest p n : fits p -> fit_name n -> noslash (enter [] dest ++ p ++ [n]) /\ enter [] dest ++ p ++ [n] <> [].
Proof.
  intros Hp (_ & Hn & _). split; [|intros H; apply app_eq_nil in H; destruct H as [_ H]; apply app_eq_nil in H; destruct H; discriminate].
  unfold noslash. apply Forall_app. split; [apply good_nice, dest_nice|]. apply Forall_app. split; [apply fits_noslash; exact Hp|constructor; [exact Hn|constructor]].
Qed.
Lemma include_bsl table dest path name : include_with s_bsl table dest path name = include_file table false dest path name.
Proof. reflexivity. Qed.
Lemma include_good ending table dest path name : ~ In slash ending -> ~ In slash (target table name) -> noslash (include_with ending table (enter [] dest) path name) /\ include_with ending table (enter [] dest) path name <> [].
Proof.
  intros He Hs. unfold include_with.
  assert (HF : Forall (fun e => ~ In slash e) (split_ch 95 (target table name))) by (apply split_parts_in; exact Hs).
  assert (Hb : forall n, ~ In slash n -> ~ In slash (n ++ ending)) by (intros n Hn H; apply in_app_or in H; destruct H; contradiction).
  assert (HL : ~ In slash (last (split_ch 95 (target table name)) [])).
  { destruct (exists_last (split_ch_nonnil 95 (target table name))) as (l & x & E2). rewrite E2 in *. rewrite last_last. apply Forall_app in HF. destruct HF as [_ HF]. inversion HF; subst. assumption. }
  pose proof (dest_nice dest) as Hne. destruct (split_ch 95 (target table name)) as [|x [|y t]] eqn:E.
  - exfalso. exact (split_ch_nonnil 95 _ E).
  - split; [|intros H; apply app_eq_nil in H; destruct H; discriminate]. apply Forall_app. split; [apply good_nice, nice_enter, Hne|]. constructor; [apply Hb; exact HL|constructor].
  - split; [|intros H; apply app_eq_nil in H; destruct H; discriminate]. apply Forall_app. split.
    + apply good_nice, nice_fold; [apply climb_noslash, Forall_removelast; exact HF|]. apply nice_removelast. exact Hne.
    + constructor; [apply Hb; exact HL|constructor].
Qed.
Lemma include_key_ext ext table dest path name : is_abs path = false -> ~ In slash ext -> ~ In slash (target table name) ->
  let pf := parse_ext table ext name path in file_key dest (fst pf) (snd pf) = written (include_with ([46] ++ ext) table (enter [] dest) path name).
Proof.
  intros Hp He Hs. cbv zeta. pose proof (@include_good ([46] ++ ext) table dest path name) as HG.
  pose proof (@include_place name path table false dest Hp Hs) as HP. cbv zeta in HP. unfold parse_ext. 
  pose proof (@split_parts_in 95 _ _ Hs) as HF.
  assert (Hb : forall n, ~ In slash n -> ~ In slash (n ++ [46] ++ ext)).
  { intros n Hn H. apply in_app_or in H. destruct H as [H|[H|H]]; [contradiction|discriminate|contradiction]. }
  unfold include_with. unfold target in *. set (t := match dget name table with Some p => p | None => name end) in *.
  destruct (split_ch 95 t) as [|a [|b l]] eqn:E.
  - exfalso. exact (split_ch_nonnil 95 _ E).
  - inversion HF as [|? ? Ha _]; subst. destruct (@parse_one name path table a E) as [P1 _]. rewrite P1. cbn [fst snd]. change UNDERSCORE with 95. rewrite E. cbn [last].
    rewrite file_key_written; [reflexivity|exact Hp|apply Hb; exact Ha].
  - rewrite (@parse_many name path table false Hs) by (unfold target; fold t; rewrite E; discriminate). unfold target. fold t. change UNDERSCORE with 95. rewrite E. cbn [fst snd].
    set (parts := a :: b :: l) in *. rewrite file_key_written.
    + rewrite enter_joins; [reflexivity|apply climb_noslash; apply Forall_removelast; exact HF|discriminate].
    + apply joins_abs; [apply climb_noslash; apply Forall_removelast; exact HF|discriminate|reflexivity].
    + apply Hb. intros H. destruct (@exists_last _ parts) as (l' & x & E2); [discriminate|]. rewrite E2 in *. rewrite last_last in H. apply Forall_app in HF. destruct HF as [_ HF]. inversion HF; subst. contradiction.
Qed.
Lemma nodup_written locs : Forall (fun f => noslash f /\ f <> []) locs -> NoDup locs -> NoDup (map written locs).
Proof.
  induction 1 as [|f locs [F1 F2] Hl IH]; intros Hn; [constructor|]. inversion Hn as [|? ? N1 N2]; subst. cbn [map]. constructor; [|exact (IH N2)].
  intros Hi. apply in_map_iff in Hi. destruct Hi as (g & E & Hg). rewrite Forall_forall in Hl. destruct (Hl g Hg) as [G1 G2]. apply (@written_inj g f) in E; try assumption. subst. contradiction.
Qed.

(** ** What lies below a folder *)
Lemma strip_app d rest : rest <> [] -> strip_comps d (d ++ rest) = Some rest.
Proof. intros H. induction d as [|x d IH]; cbn; [destruct rest; [congruence|reflexivity]|]. rewrite str_eqb_refl. exact IH. Qed.
Lemma strip_inv d : forall f rest, strip_comps d f = Some rest -> rest <> [] /\ f = d ++ rest.
Proof.
  induction d as [|x d IH]; intros f rest H; cbn in H.
  - destruct f; [discriminate|]. injection H as <-. split; [discriminate|reflexivity].
  - destruct f as [|y f]; [discriminate|]. destruct (str_eqb x y) eqn:E; [|discriminate]. apply str_eqb_spec in E. subst y. destruct (IH _ _ H) as [A ->]. split; [exact A|reflexivity].
Qed.
Lemma below_written dest f : noslash f -> f <> [] -> below dest (written f) = strip_comps (enter [] dest) f.
Proof. intros Hf Hne. unfold below. rewrite acomps_enter. unfold written. cbn [tl]. rewrite split_ch_join by assumption. reflexivity. Qed.
Lemma below_in dest f : noslash f -> f <> [] -> (exists rest, below dest (written f) = Some rest) <-> within (enter [] dest) f.
Proof.
  intros Hf Hne. rewrite below_written by assumption. split.
  - intros (rest & H). apply strip_inv in H. exists rest. exact H.
  - intros (rest & H & ->). exists rest. apply strip_app. exact H.
Qed.
Lemma below_own dest p n : fits p -> fit_name n -> below dest (written (enter [] dest ++ p ++ [n])) = Some (p ++ [n]).
Proof. intros Hp Hn. destruct (own_good dest Hp Hn) as [A B]. rewrite below_written by assumption. apply strip_app. destruct p; discriminate. Qed.

(** ** The walk *)
Lemma found_fits ents p n b : found ents p n b -> well_named ents -> fits p /\ fit_name n.
Proof.
  induction 1 as [ents n b Hi|ents d sub p n b Hi _ IH]; intros Hw; inversion Hw as [? H1 H2 H3]; subst; rewrite Forall_forall in H2; [split; [constructor|exact (H2 _ Hi)]|].
  destruct (IH (H3 _ _ Hi)) as [A B]. split; [constructor; [exact (H2 _ Hi)|exact A]|exact B].
Qed.
Lemma nodup_fst_in A (l : list (list N * A)) k a b : NoDup (map fst l) -> In (k, a) l -> In (k, b) l -> a = b.
Proof.
  induction l as [|[x y] l IH]; intros Hn H1 H2; [destruct H1|]. cbn in Hn. inversion Hn as [|? ? N1 N2]; subst. destruct H1 as [H1|H1], H2 as [H2|H2].
  - congruence.
  - injection H1 as -> ->. exfalso. apply N1. apply in_map_iff. exists (k, b). split; [reflexivity|exact H2].
  - injection H2 as -> ->. exfalso. apply N1. apply in_map_iff. exists (k, a). split; [reflexivity|exact H1].
  - exact (IH N2 H1 H2).
Qed.
Lemma found_fun ents p n b : found ents p n b -> forall b', well_named ents -> found ents p n b' -> b = b'.
Proof.
  induction 1 as [ents n b Hi|ents d sub p n b Hi _ IH]; intros b' Hw H2; inversion Hw as [? W1 W2 W3]; subst; inversion H2 as [? ? ? Hi'|? ? sub' ? ? ? Hi' Hf]; subst.
  - pose proof (nodup_fst_in _ _ _ _ W1 Hi Hi') as E. injection E as ->. reflexivity.
  - pose proof (nodup_fst_in _ _ _ _ W1 Hi Hi') as E. injection E as ->. exact (IH _ (W3 _ _ Hi) Hf).
Qed.
Fixpoint tsize (t : tree) : nat := match t with TFile _ => 1 | TDir ents => S ((fix go (l : list (list N * tree)) : nat := match l with [] => 0%nat | (_, t) :: r => (tsize t + go r)%nat end) ents) end.
Lemma tsize_in n t ents : In (n, t) ents -> (tsize t < tsize (TDir ents))%nat.
Proof.
  intros H. cbn [tsize]. apply le_n_S. induction ents as [|[m s] ents IH]; [destruct H|]. destruct H as [H|H]; [injection H as -> ->; lia|]. specialize (IH H). lia.
Qed.
Lemma walk_dir path d ents : walk_entry path d (TDir ents) = walk_from (path_join path d) ents.
Proof. cbn [walk_entry]. unfold walk_from. induction ents as [|[n t] ents IH]; [reflexivity|]. cbn [flat_map fst snd]. rewrite IH. reflexivity. Qed.
Lemma walk_found k : forall ents pre f, (tsize (TDir ents) <= k)%nat -> well_named ents -> fits pre ->
  (In f (walk_from (join [47] pre) ents) <-> exists p n b, found ents p n b /\ f = mkentry (join [47] (pre ++ p)) n b).
Proof.
  induction k as [|k IH]; intros ents pre f Hk Hw Hp; [cbn in Hk; lia|]. inversion Hw as [? W1 W2 W3]; subst. rewrite Forall_forall in W2. unfold walk_from. rewrite in_flat_map. split.
  - intros ([n t] & Hi & Hf). cbn [fst snd] in Hf. destruct t as [b|sub].
    + destruct Hf as [<-|[]]. exists [], n, b. split; [constructor; exact Hi|rewrite app_nil_r; reflexivity].
    + rewrite walk_dir, join_step in Hf by (first [exact Hp | exact (W2 _ Hi)]). apply IH in Hf.
      * destruct Hf as (p & m & b & Hf & ->). exists (n :: p), m, b. split; [econstructor; eassumption|]. rewrite <- app_assoc. reflexivity.
      * pose proof (tsize_in _ _ _ Hi). lia.
      * exact (W3 _ _ Hi).
      * apply Forall_app. split; [exact Hp|constructor; [exact (W2 _ Hi)|constructor]].
  - intros (p & n & b & Hf & ->). inversion Hf as [? ? ? Hi|? d sub p' ? ? Hi Hf']; subst.
    + exists (n, TFile b). split; [exact Hi|]. left. rewrite app_nil_r. reflexivity.
    + exists (d, TDir sub). split; [exact Hi|]. cbn [fst snd]. rewrite walk_dir, join_step by (first [exact Hp | exact (W2 _ Hi)]). apply IH.
      * pose proof (tsize_in _ _ _ Hi). lia.
      * exact (W3 _ _ Hi).
      * apply Forall_app. split; [exact Hp|constructor; [exact (W2 _ Hi)|constructor]].
      * exists p', n, b. split; [exact Hf'|]. rewrite <- app_assoc. reflexivity.
Qed.
Lemma walk_all_found src f : well_named src -> (In f (walk_all src) <-> exists p n b, found src p n b /\ f = mkentry (join [47] p) n b).
Proof. intros Hw. exact (@walk_found _ src [] f (le_n _) Hw (Forall_nil _)). Qed.
Lemma walk_single pre p n b : fits pre -> fits p -> fit_name n -> walk_from (join [47] pre) (single p n b) = [mkentry (join [47] (pre ++ p)) n b].
Proof.
  intros Hpre Hp Hn. revert pre Hpre. induction Hp as [|d p Hd _ IH]; intros pre Hpre; [cbn; rewrite app_nil_r; reflexivity|]. cbn [single]. unfold walk_from. cbn [flat_map fst snd]. rewrite app_nil_r, walk_dir, join_step by assumption.
  rewrite IH by (apply Forall_app; split; [exact Hpre|constructor; [exact Hd|constructor]]). rewrite <- app_assoc. reflexivity.
Qed.
