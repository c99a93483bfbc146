From Verif Require Import PyBase PyInt PyText Brace Directives ExtError CalcOffset Retry Spec_Misc.
Set Implicit Arguments.
Open Scope list_scope.
Open Scope N_scope.

(** ** Directives *)
Definition marked_text (d : N) : list N := LF :: marker ++ [d].
Definition no_mark (t : list N) : Prop := forall d, In d [35; 124; 38] -> ~ occurs (marked_text d) t.
Lemma no_mark_tail c t : no_mark (c :: t) -> no_mark t.
Proof. intros H d Hd (a & b & E). apply (H d Hd). exists (c :: a), b. rewrite E. reflexivity. Qed.
Lemma no_mark_here t : no_mark (LF :: t) -> marked_at t = false.
Proof.
  intros H. destruct (marked_at t) eqn:E; [|reflexivity]. exfalso. unfold marked_at in E. apply andb_true_iff in E. destruct E as [E1 E2].
  apply starts_spec in E1. destruct E1 as [r ->]. rewrite skipn_app, skipn_all, Nat.sub_diag in E2. cbn [app skipn] in E2.
  destruct r as [|d r]; [discriminate|]. apply (H d).
  - unfold dir_char in E2. destruct (N.eqb_spec d 35); [subst; cbn; auto|]. destruct (N.eqb_spec d 124); [subst; cbn; auto|].
    destruct (N.eqb_spec d 38); [subst; cbn; auto|]. discriminate.
  - exists [], r. unfold marked_text. cbn [app]. rewrite <- app_assoc. reflexivity.
Qed.
Lemma comment_hd t : directive_at t = true -> exists d r r', t = d :: r /\ dir_char d = true /\ d <> LF /\ comment_directives t = d :: r'.
Proof.
  unfold directive_at. intros H. destruct t as [|d r]; [discriminate|]. exists d, r.
  assert (Hd : d = 35 \/ d = 38).
  { cbn [starts d_area d_end d_server d_client] in H.
    destruct (N.eqb_spec 35 d); [auto|]. destruct (N.eqb_spec 38 d); [auto|]. cbn [andb orb] in H. discriminate. }
  exists (comment_directives r). split; [reflexivity|]. cbn [comment_directives].
  destruct Hd as [-> | ->]; repeat split; discriminate.
Qed.
Lemma marker_nolf : ~ In LF marker.
Proof. intros H. vm_compute in H. intuition discriminate. Qed.
Lemma uncomment_skip a t : uncomment_go (length a) (a ++ t) = uncomment_go O t.
Proof. induction a as [|c a IH]; [reflexivity|exact IH]. Qed.

Lemma uncomment_comment t : no_mark t -> uncomment_directives (comment_directives t) = t.
Proof.
  unfold uncomment_directives. induction t as [|c t IH]; intros H; [reflexivity|].
  pose proof (IH (no_mark_tail H)) as IH'. cbn [comment_directives].
  destruct (N.eqb_spec c LF) as [->|Hne]; cbn [andb].
  - destruct (directive_at t) eqn:E.
    + destruct (comment_hd _ E) as (d & r & r' & -> & Hd & Hlf & Ec). rewrite Ec in *.
      cbn [uncomment_go]. rewrite N.eqb_refl. cbn [andb]. unfold marked_at. rewrite starts_app.
      rewrite skipn_app, skipn_all, Nat.sub_diag. cbn [app skipn andb]. rewrite Hd.
      rewrite (uncomment_skip marker (d :: r')). rewrite IH'. reflexivity.
    + cbn [uncomment_go]. rewrite N.eqb_refl. cbn [andb].
      assert (Hm : marked_at (comment_directives t) = false).
      { destruct (marked_at (comment_directives t)) eqn:Em; [|reflexivity]. exfalso.
        pose proof (no_mark_here H) as Hn.
        assert (Hcp : forall (p s : list N), ~ In LF p -> starts p (comment_directives s) = true -> starts p s = true /\ forall x r, skipn (length p) (comment_directives s) = x :: r -> x <> LF -> exists r', skipn (length p) s = x :: r').
        { intros p. induction p as [|y p IHp]; intros s Hp Hs.
          - split; [reflexivity|]. intros x r. cbn [skipn length]. destruct s as [|z s]; [discriminate|]. cbn [comment_directives].
            destruct ((z =? LF) && directive_at s) eqn:Ez; intros Ex Hx; injection Ex as Ex _; [congruence|subst; eexists; reflexivity].
          - destruct s as [|z s]; [discriminate|]. cbn [comment_directives] in *.
            destruct ((z =? LF) && directive_at s) eqn:Ez.
            + exfalso. cbn in Hs. apply andb_true_iff in Hs. destruct Hs as [Hs _]. apply N.eqb_eq in Hs. apply Hp. left. exact Hs.
            + cbn [starts] in *. apply andb_true_iff in Hs. destruct Hs as [Hs1 Hs2]. rewrite Hs1.
              apply IHp in Hs2; [|intros Hin; apply Hp; right; exact Hin]. destruct Hs2 as [Hs2 Hs3]. split; [exact Hs2|].
              intros x r. cbn [skipn length]. apply Hs3. }
        unfold marked_at in Em, Hn. apply andb_true_iff in Em. destruct Em as [Em1 Em2].
        destruct (Hcp _ _ marker_nolf Em1) as [Hs1 Hs2]. rewrite Hs1 in Hn. cbn [andb] in Hn.
        destruct (skipn (length marker) (comment_directives t)) as [|x r] eqn:Ex; [discriminate|].
        destruct (Hs2 x r eq_refl) as [r' Er']; [intros ->; discriminate|]. rewrite Er' in Hn. congruence. }
      rewrite Hm, IH'. reflexivity.
  - cbn [uncomment_go]. apply N.eqb_neq in Hne. rewrite Hne. cbn [andb]. rewrite IH'. reflexivity.
Qed.

Lemma cons_eq {A} (x y : A) a b : x :: a = y :: b -> x = y /\ a = b.
Proof. intros H. injection H. auto. Qed.
(** no directive is left at the start of a later line *)
Lemma comment_no_directive t : forall a b, comment_directives t = a ++ LF :: b -> directive_at b = false.
Proof.
  induction t as [|c t IH]; intros a b H; [destruct a; discriminate|]. cbn [comment_directives] in H.
  destruct (N.eqb_spec c LF) as [->|Hne]; cbn [andb] in H.
  - destruct (directive_at t) eqn:E.
    + destruct a as [|x a]; cbn [app] in H; apply cons_eq in H; destruct H as [Hx H].
      * subst b. reflexivity.
      * subst x. assert (exists a', comment_directives t = a' ++ LF :: b) as [a' E'].
        { clear -H. pose proof marker_nolf as Hm. revert a H. induction marker as [|y m IHm]; intros a H; [exists a; exact H|].
          destruct a as [|z a]; cbn [app] in H; apply cons_eq in H; destruct H as [H1 H2]; [exfalso; apply Hm; left; congruence|].
          apply (IHm (fun X => Hm (or_intror X)) a H2). }
        eapply IH. exact E'.
    + destruct a as [|x a]; cbn [app] in H; apply cons_eq in H; destruct H as [Hx H]; [|eapply IH; exact H].
      subst b. destruct (directive_at (comment_directives t)) eqn:E2; [|reflexivity]. exfalso.
      assert (Hcp : forall p s, ~ In LF p -> starts p (comment_directives s) = true -> starts p s = true).
      { intros p. induction p as [|y p IHp]; intros s Hp Hs; [reflexivity|].
        destruct s as [|z s]; [discriminate|]. cbn [comment_directives] in Hs.
        destruct ((z =? LF) && directive_at s) eqn:Ez.
        + exfalso. cbn in Hs. apply andb_true_iff in Hs. destruct Hs as [Hs _]. apply N.eqb_eq in Hs. apply Hp. left. exact Hs.
        + cbn [starts] in *. apply andb_true_iff in Hs. destruct Hs as [Hs1 Hs2]. rewrite Hs1. apply IHp; [|exact Hs2].
          intros Hin; apply Hp; right; exact Hin. }
      assert (Hno : forall p, In p [d_area; d_end; d_server; d_client] -> ~ In LF p).
      { intros p Hp Hin. cbn [In] in Hp. destruct Hp as [<-|[<-|[<-|[<-|[]]]]]; vm_compute in Hin; intuition discriminate. }
      unfold directive_at in E, E2.
      assert (Hany : forall p, In p [d_area; d_end; d_server; d_client] -> starts p (comment_directives t) = true -> starts p t = true).
      { intros p Hp. apply Hcp. apply Hno. exact Hp. }
      apply orb_false_iff in E. destruct E as [E E4]. apply orb_false_iff in E. destruct E as [E E3]. apply orb_false_iff in E. destruct E as [E1 E0].
      apply orb_true_iff in E2. destruct E2 as [E2|E2]; [apply orb_true_iff in E2; destruct E2 as [E2|E2]; [apply orb_true_iff in E2; destruct E2 as [E2|E2]|]|];
        apply Hany in E2; cbn [In]; auto 6; congruence.
  - destruct a as [|x a]; cbn [app] in H; apply cons_eq in H; destruct H as [Hx H]; [congruence|]. eapply IH. exact H.
Qed.

(** ** calc_offset *)
Open Scope Z_scope.
Lemma py_nth_mid pre x post : py_nth (pre ++ x :: post) (zlen pre) = Ok x.
Proof.
  unfold py_nth. pose proof (zlen_nonneg pre). destruct (Z.ltb_spec (zlen pre) 0); [lia|]. cbv zeta.
  destruct (Z.ltb_spec (zlen pre) 0); [lia|]. unfold zlen. rewrite Nat2Z.id.
  rewrite nth_error_app2 by lia. rewrite Nat.sub_diag. reflexivity.
Qed.
Lemma py_nth_end pre x post : py_nth (pre ++ x :: post) (- (1 + zlen post)) = Ok x.
Proof.
  unfold py_nth. pose proof (zlen_nonneg post). pose proof (zlen_nonneg pre). destruct (Z.ltb_spec (- (1 + zlen post)) 0); [|lia]. cbv zeta.
  replace (- (1 + zlen post) + zlen (pre ++ x :: post)) with (zlen pre) by (rewrite zlen_app, zlen_cons; lia).
  destruct (Z.ltb_spec (zlen pre) 0); [lia|]. unfold zlen. rewrite Nat2Z.id. rewrite nth_error_app2 by lia. rewrite Nat.sub_diag. reflexivity.
Qed.
Lemma py_nth_out l i : i < - zlen l \/ zlen l <= i -> py_nth l i = Err IndexError.
Proof.
  intros H. unfold py_nth. pose proof (zlen_nonneg l). destruct (Z.ltb_spec i 0); cbv zeta.
  - destruct (Z.ltb_spec (i + zlen l) 0); [reflexivity|lia].
  - destruct (Z.ltb_spec i 0); [lia|]. destruct (nth_error l (Z.to_nat i)) eqn:E; [|reflexivity].
    assert (Hn : nth_error l (Z.to_nat i) <> None) by congruence. apply nth_error_Some in Hn. unfold zlen in H. lia.
Qed.
Lemma calc_offset_walk counters data : laid_out counters data -> forall pre post, pre <> [] ->
  calc_offset_go (zlen pre - 1) counters (pre ++ data ++ post) = Ok (zlen pre + zlen data - 1).
Proof.
  induction 1 as [|k size counters seg rest Hseg Hlo IH]; intros pre post Hpre.
  - cbn [calc_offset_go]. f_equal. rewrite zlen_nil. lia.
  - cbn [calc_offset_go].
    assert (Hne : pre ++ seg <> []) by (destruct pre; [congruence|discriminate]).
    assert (Hrec : calc_offset_go (zlen pre + zlen seg - 1) counters (pre ++ (seg ++ rest) ++ post) = Ok (zlen pre + zlen (seg ++ rest) - 1)).
    { specialize (IH (pre ++ seg) post Hne). rewrite !zlen_app in *. rewrite <- !app_assoc in *. rewrite IH. f_equal. lia. }
    destruct Hseg as [k items Hk|k size filler n records Hk Hs Hn Hr].
    + cbn [Z.eqb]. subst k. rewrite <- Hrec. f_equal. lia.
    + destruct (Z.eqb_spec size 0); [contradiction|]. subst k.
      replace (zlen pre - 1 + (1 + zlen filler)) with (zlen (pre ++ filler)) by (rewrite zlen_app; lia).
      assert (E : pre ++ ((filler ++ VStr (str_of_int n) :: records) ++ rest) ++ post =
                  (pre ++ filler) ++ VStr (str_of_int n) :: (records ++ rest ++ post)).
      { rewrite <- !app_assoc. cbn [app]. rewrite <- ?app_assoc. reflexivity. }
      rewrite E at 1. rewrite py_nth_mid. cbn [int_of_val]. rewrite int_of_str_of_int.
      rewrite <- Hrec. f_equal. rewrite !zlen_app, zlen_cons, Hr. lia.
Qed.

Lemma calc_offset_app counters data : laid_out counters data -> forall pre post more, pre <> [] ->
  calc_offset_go (zlen pre - 1) (counters ++ more) (pre ++ data ++ post) = calc_offset_go (zlen pre + zlen data - 1) more (pre ++ data ++ post).
Proof.
  induction 1 as [|k size counters seg rest Hseg Hlo IH]; intros pre post more Hpre.
  - cbn [app]. f_equal. rewrite zlen_nil. lia.
  - cbn [calc_offset_go app].
    assert (Hne : pre ++ seg <> []) by (destruct pre; [congruence|discriminate]).
    assert (Hrec : calc_offset_go (zlen pre + zlen seg - 1) (counters ++ more) (pre ++ (seg ++ rest) ++ post) = calc_offset_go (zlen pre + zlen (seg ++ rest) - 1) more (pre ++ (seg ++ rest) ++ post)).
    { specialize (IH (pre ++ seg) post more Hne). rewrite !zlen_app in *. rewrite <- !app_assoc in *. rewrite IH. f_equal. lia. }
    destruct Hseg as [k items Hk|k size filler n records Hk Hs Hn Hr].
    + cbn [Z.eqb]. subst k. rewrite <- Hrec. f_equal. lia.
    + destruct (Z.eqb_spec size 0); [contradiction|]. subst k.
      replace (zlen pre - 1 + (1 + zlen filler)) with (zlen (pre ++ filler)) by (rewrite zlen_app; lia).
      assert (E : pre ++ ((filler ++ VStr (str_of_int n) :: records) ++ rest) ++ post =
                  (pre ++ filler) ++ VStr (str_of_int n) :: (records ++ rest ++ post)).
      { rewrite <- !app_assoc. cbn [app]. rewrite <- ?app_assoc. reflexivity. }
      rewrite E at 1. rewrite py_nth_mid. cbn [int_of_val]. rewrite int_of_str_of_int.
      rewrite <- Hrec. f_equal. rewrite !zlen_app, zlen_cons, Hr. lia.
Qed.

(** ** errors *)
Section Err.
  Variable cm : list N -> option (list N).

  Lemma wrap_keeps k e : k_message k = None -> truthy (x_message e) = true ->
    x_message (wrap cm k e) = x_message e /\ x_detail (wrap cm k e) = x_detail e /\ x_code (wrap cm k e) = x_code e.
  Proof. intros Hk Hm. unfold wrap. rewrite Hk. cbn [truthy negb x_message x_detail x_code]. rewrite Hm. auto. Qed.

  Lemma last_action_app st e : last_action (st ++ [e]) = Some (se_action e).
  Proof. unfold last_action. rewrite rev_app_distr. reflexivity. Qed.

  Definition acts (st : list sentry) : list (option (list N)) := map se_action st.
  Definition lastof (st : list sentry) : option (list N) := match last_action st with Some a => a | None => None end.

  (** the stack of a chain of wraps: the stack of the error, then one entry per action met,
      repetitions collapsed *)
  Lemma wraps_stack ks : Forall (fun k => k_message k = None) ks -> forall e,
    acts (x_stack (wraps cm ks e)) = acts (x_stack e) ++
      map Some (collapse (lastof (x_stack e)) (map x_action (firstn (length ks) (e :: map (fun k => mkext [] None None None (k_action k) [] [] false) ks)))).
  Proof.
    intros Hks. induction Hks as [|k ks Hk Hks IH]; intros e.
    - cbn. rewrite app_nil_r. reflexivity.
    - cbn [wraps length firstn map]. rewrite IH. clear IH.
      assert (Ew : x_action (wrap cm k e) = k_action k) by reflexivity.
      assert (Es : x_stack (wrap cm k e) = add_parent_to_stack [] e) by reflexivity.
      rewrite Es. unfold add_parent_to_stack. cbn [app].
      assert (Hrest : map x_action (firstn (length ks) (wrap cm k e :: map (fun k0 => mkext [] None None None (k_action k0) [] [] false) ks))
                    = map x_action (firstn (length ks) (mkext [] None None None (k_action k) [] [] false :: map (fun k0 => mkext [] None None None (k_action k0) [] [] false) ks))).
      { destruct (length ks); [reflexivity|]. cbn [firstn map x_action]. reflexivity. }
      rewrite Hrest. clear Hrest.
      set (rest := map x_action (firstn (length ks) _)). cbn [map].
      destruct (x_action e) as [[|c a]|] eqn:Ea; cbn [truthy negb orb collapse].
      + reflexivity.
      + unfold lastof. destruct (last_action (x_stack e)) as [la|] eqn:El.
        * destruct la as [l|]; cbn [same_action].
          -- destruct (str_eqb l (c :: a)) eqn:E.
             ++ rewrite El. reflexivity.
             ++ rewrite last_action_app. cbn [se_action]. unfold acts. rewrite map_app. cbn [map]. rewrite <- app_assoc. reflexivity.
          -- rewrite last_action_app. cbn [se_action]. unfold acts. rewrite map_app. cbn [map]. rewrite <- app_assoc. reflexivity.
        * rewrite last_action_app. cbn [se_action]. unfold acts. rewrite map_app. cbn [map]. rewrite <- app_assoc. reflexivity.
      + reflexivity.
  Qed.

  Definition entry3 (s : sentry) : level := (se_action s, se_message s, se_detail s).
  Definition told (e : ext) : level :=
    (x_action e, if x_new_msg e then x_message e else None, if x_new_msg e then nonempty (x_detail e) else None).
  Definition given (k : kw) : level :=
    (k_action k, nonempty (k_message k), match nonempty (k_message k) with Some _ => nonempty (k_detail k) | None => None end).
  Lemma told_wrap k e : told (wrap cm k e) = given k.
  Proof.
    unfold told, given, wrap. cbn [x_action x_new_msg x_message x_detail].
    destruct (k_message k) as [[|c m]|]; reflexivity.
  Qed.
  Lemma entry3_new e : (entry3 (mkse (x_action e) (if x_new_msg e then x_message e else None) (if x_new_msg e && truthy (x_detail e) then x_detail e else None))) = told e.
  Proof. unfold entry3, told. cbn. destruct (x_new_msg e); cbn; [|reflexivity]. destruct (x_detail e) as [[|c d]|]; reflexivity. Qed.
  Lemma wraps_levels ks : forall e,
    map entry3 (x_stack (wraps cm ks e)) = map entry3 (x_stack e) ++
      collapse_levels (lastof (x_stack e)) (firstn (length ks) (told e :: map given ks)).
  Proof.
    induction ks as [|k ks IH]; intros e.
    - cbn. rewrite app_nil_r. reflexivity.
    - cbn [wraps length firstn map]. rewrite IH. clear IH. rewrite told_wrap.
      assert (Es : x_stack (wrap cm k e) = add_parent_to_stack [] e) by reflexivity.
      rewrite Es. unfold add_parent_to_stack. cbn [app]. rewrite <- entry3_new. unfold entry3 at 3. cbn [se_action se_message se_detail].
      set (rest := firstn (length ks) _).
      destruct (x_action e) as [[|c a]|] eqn:Ea; cbn [truthy negb orb collapse_levels].
      + reflexivity.
      + unfold lastof. destruct (last_action (x_stack e)) as [[l|]|] eqn:El; cbn [same_action].
        * destruct (str_eqb l (c :: a)) eqn:E.
          -- rewrite El. reflexivity.
          -- rewrite last_action_app. cbn [se_action]. rewrite map_app. cbn [map]. rewrite <- app_assoc. reflexivity.
        * rewrite last_action_app. cbn [se_action]. rewrite map_app. cbn [map]. rewrite <- app_assoc. reflexivity.
        * rewrite last_action_app. cbn [se_action]. rewrite map_app. cbn [map]. rewrite <- app_assoc. reflexivity.
      + reflexivity.
  Qed.

  Lemma wraps_keep ks : Forall (fun k => k_message k = None) ks -> forall e, truthy (x_message e) = true ->
    x_message (wraps cm ks e) = x_message e /\ x_detail (wraps cm ks e) = x_detail e /\ x_code (wraps cm ks e) = x_code e.
  Proof.
    intros Hks. induction Hks as [|k ks Hk Hks IH]; intros e Hm; [auto|]. cbn [wraps].
    destruct (wrap_keeps k e Hk Hm) as (A & B & C). destruct (IH (wrap cm k e)) as (A' & B' & C'); [rewrite A; exact Hm|].
    repeat split; congruence.
  Qed.
  Lemma wraps_class ks : Forall (fun k => k_message k = None /\ k_cls k = base_cls) ks -> forall e, x_cls (wraps cm ks e) = x_cls e.
  Proof.
    intros Hks. induction Hks as [|k ks [Hk Hc] Hks IH]; intros e; [reflexivity|]. cbn [wraps]. rewrite IH.
    unfold wrap. cbn [x_cls]. rewrite Hk, Hc. rewrite str_eqb_refl. rewrite andb_true_r, andb_true_r.
    destruct (str_eqb (x_cls e) base_cls) eqn:E; [apply str_eqb_spec in E; cbn; congruence|reflexivity].
  Qed.

  Lemma merge_dump_get mine parent k : NoDup (map fst parent) ->
    dget k (merge_dump mine parent) = match dget k mine with Some v => Some v | None => dget k parent end.
  Proof.
    revert mine. induction parent as [|[pk pv] parent IH]; intros mine Hnd; cbn [merge_dump dget].
    - destruct (dget k mine); reflexivity.
    - cbn [map fst] in Hnd. inversion Hnd as [|? ? Hni Hnd']; subst. rewrite IH by exact Hnd'.
      destruct (str_eqb k pk) eqn:E.
      + apply str_eqb_spec in E. subst pk. destruct (dget k mine) as [v|] eqn:Em; [rewrite Em; reflexivity|].
        rewrite dget_dset_same. reflexivity.
      + apply str_eqb_neq in E. destruct (dget pk mine) as [v|] eqn:Em; [reflexivity|].
        rewrite dget_dset_other by congruence. reflexivity.
  Qed.
  Lemma merge_dump_nodup mine parent : NoDup (map fst mine) -> NoDup (map fst (merge_dump mine parent)).
  Proof.
    revert mine. induction parent as [|[pk pv] parent IH]; intros mine H; [exact H|]. cbn [merge_dump]. apply IH.
    destruct (dget pk mine) eqn:E; [exact H|]. apply dget_none in E. rewrite dset_fresh by exact E. rewrite map_app. cbn [map fst].
    rewrite <- (rev_involutive (map fst mine ++ [pk])). apply NoDup_rev. rewrite rev_app_distr. cbn. constructor.
    - rewrite <- in_rev. exact E.
    - apply NoDup_rev. exact H.
  Qed.
  (** the outermost value given for a key wins *)
  Lemma wraps_dump ks e k : NoDup (map fst (x_dump e)) -> Forall (fun w => NoDup (map fst (k_dump w))) ks ->
    dget k (x_dump (wraps cm ks e)) =
      fold_left (fun r w => match dget k (k_dump w) with Some v => Some v | None => r end) ks (dget k (x_dump e)).
  Proof.
    revert e. induction ks as [|w ks IH]; intros e He Hks; [reflexivity|]. inversion Hks as [|? ? Hw Hks']; subst.
    cbn [wraps fold_left]. rewrite IH; [|unfold wrap; cbn [x_dump]; apply merge_dump_nodup; exact Hw|exact Hks'].
    unfold wrap at 1. cbn [x_dump]. rewrite merge_dump_get by exact He. reflexivity.
  Qed.
End Err.

(** ** retries *)
Lemma makedirs_cases os :
  (exists i, (i < 3)%nat /\ os i = MkDone /\ (forall j, (j < i)%nat -> os j = MkPerm) /\ makedirs os = (Ok tt, S i)) \/
  (exists i e, (i < 3)%nat /\ os i = MkOther e /\ (forall j, (j < i)%nat -> os j = MkPerm) /\ makedirs os = (Err e, S i)) \/
  ((forall j, (j < 3)%nat -> os j = MkPerm) /\ makedirs os = (Err PermissionError, 3%nat)).
Proof.
  unfold makedirs. cbn [makedirs_go].
  destruct (os 0%nat) eqn:E0.
  { left. exists O. repeat split; [lia|exact E0|lia]. }
  2: { right. left. exists O, e. repeat split; [lia|exact E0|lia]. }
  destruct (os 1%nat) eqn:E1.
  { left. exists 1%nat. repeat split; [lia|exact E1|intros j Hj; assert (j = O) as -> by lia; exact E0]. }
  2: { right. left. exists 1%nat, e. repeat split; [lia|exact E1|intros j Hj; assert (j = O) as -> by lia; exact E0]. }
  destruct (os 2%nat) eqn:E2.
  { left. exists 2%nat. repeat split; [lia|exact E2|intros j Hj]. destruct j as [|[|j]]; [exact E0|exact E1|lia]. }
  - right. right. split; [|reflexivity]. intros j Hj. destruct j as [|[|[|j]]]; [exact E0|exact E1|exact E2|lia].
  - right. left. exists 2%nat, e. repeat split; [lia|exact E2|intros j Hj]. destruct j as [|[|j]]; [exact E0|exact E1|lia].
Qed.

Definition wr_perm (a : wr_attempt) : Prop := a = WrPerm \/ exists l, a = WrPermLeft l.
Lemma txt_write_ok data mk os content :
  fst (txt_write (Some data) mk os content) = Ok tt <->
  (exists i, (i < 3)%nat /\ mk i = MkDone /\ forall j, (j < i)%nat -> mk j = MkPerm) /\
  (exists i, (i < 3)%nat /\ os i = WrDone /\ forall j, (j < i)%nat -> wr_perm (os j)).
Proof.
  unfold txt_write. destruct (makedirs_cases mk) as [(i & Hi & H1 & H2 & ->)|[(i & e & Hi & H1 & H2 & ->)|[H ->]]].
  - assert (Hw : fst match write_go 3 0 os data content with (Ok _, _, c) => (@Ok unit tt, c) | (Err _, _, c) => (Err ExtExc, c) end = Ok tt <->
       exists i, (i < 3)%nat /\ os i = WrDone /\ forall j, (j < i)%nat -> wr_perm (os j)).
    { cbn [write_go].
      assert (Hfalse : (exists i, (i < 3)%nat /\ os i = WrDone /\ forall j, (j < i)%nat -> wr_perm (os j)) ->
         (exists n e l, (n < 3)%nat /\ os n = WrOther e l /\ forall j, (j < n)%nat -> wr_perm (os j)) -> False).
      { intros (a & Ha & Ha1 & Ha2) (n & e & l & Hn & Hn1 & Hn2).
        destruct (Nat.lt_trichotomy a n) as [X|[X|X]].
        - specialize (Hn2 _ X). rewrite Ha1 in Hn2. destruct Hn2 as [Y|[z Y]]; discriminate.
        - subst. congruence.
        - specialize (Ha2 _ X). rewrite Hn1 in Ha2. destruct Ha2 as [Y|[z Y]]; discriminate. }
      destruct (os 0%nat) eqn:E0; cbn [fst].
      { split; [|reflexivity]. intros _. exists O. repeat split; [lia|exact E0|lia]. }
      3: { split; [discriminate|]. intros X. exfalso. apply (Hfalse X). exists O, e, lft. repeat split; [lia|exact E0|lia]. }
      all: assert (P0 : wr_perm (os 0%nat)) by (rewrite E0; unfold wr_perm; eauto).
      all: destruct (os 1%nat) eqn:E1; cbn [fst].
      all: try (split; [|reflexivity]; intros _; exists 1%nat; repeat split; [lia|exact E1|intros j Hj; assert (j = O) as -> by lia; exact P0]).
      all: try (split; [discriminate|]; intros X; exfalso; apply (Hfalse X); exists 1%nat; do 2 eexists; repeat split; [lia|exact E1|intros j Hj; assert (j = O) as -> by lia; exact P0]).
      all: assert (P1 : wr_perm (os 1%nat)) by (rewrite E1; unfold wr_perm; eauto).
      all: destruct (os 2%nat) eqn:E2; cbn [fst].
      all: try (split; [|reflexivity]; intros _; exists 2%nat; repeat split; [lia|exact E2|intros j Hj; destruct j as [|[|j]]; [exact P0|exact P1|lia]]).
      all: split; [discriminate|]; intros (a & Ha & Ha1 & Ha2); destruct a as [|[|[|a]]]; try congruence; lia. }
    rewrite Hw. split; [|tauto]. intros X. split; [exists i; auto|exact X].
  - cbn [fst]. split; [discriminate|]. intros [(a & Ha & Ha1 & Ha2) _]. exfalso. destruct (Nat.lt_trichotomy a i) as [X|[X|X]].
    + specialize (H2 _ X). congruence.
    + subst. congruence.
    + specialize (Ha2 _ X). congruence.
  - cbn [fst]. split; [discriminate|]. intros [(a & Ha & Ha1 & Ha2) _]. specialize (H _ Ha). congruence.
Qed.
Lemma txt_write_content data mk os content c : txt_write (Some data) mk os content = (Ok tt, c) -> c = Some data.
Proof.
  unfold txt_write. destruct (makedirs mk) as [[x|e] n]; [|discriminate]. cbn [write_go].
  destruct (os 0%nat); [intros H; injection H as <-; reflexivity| | |discriminate];
  (destruct (os 1%nat); [intros H; injection H as <-; reflexivity| | |discriminate]);
  (destruct (os 2%nat); [intros H; injection H as <-; reflexivity| | |discriminate]); discriminate.
Qed.
