(** Where the files of a folder of sources go when there is an index. *)
From Coq Require Import String Lia.
From Verif Require Import PyBase PyText Paths Json Index IndexLookup Utf JsonText JsonObj Pipeline Spec_Code OrgCode OrgCodeProofs OrgCodePaths OrgForm OrgTree Spec_OrgTree OrgTreePaths OrgIndex Spec_OrgIndex.
Set Implicit Arguments.
Open Scope list_scope.
Open Scope N_scope.

Lemma moved_fun d p n loc : moved_to d p n loc -> forall loc', moved_to d p n loc' -> loc = loc'.
Proof. induction 1 as [d n loc Hn Hd Hl|d x sub p n loc Hx Hd _ IH]; intros loc' H; inversion H; subst; [congruence|]. rewrite Hd in *. match goal with E : Some (JDict _) = Some (JDict _) |- _ => injection E as <- end. apply IH. assumption. Qed.
Lemma lies_fun d D p n g g' : lies d D p n g -> lies d D p n g' -> g = g'.
Proof. intros [(l & H & ->)|[H ->]] [(l' & H' & ->)|[H' ->]]; [rewrite (moved_fun H H'); reflexivity|destruct (H' _ H)|destruct (H _ H')|reflexivity]. Qed.
Lemma proper_get d k v : proper_index d -> dget k d = Some v -> k <> areas_name -> fit_name k /\ (forall r, k <> 42 :: r) /\ ((exists loc, v = JStr loc) \/ exists sub, v = JDict sub /\ proper_index sub).
Proof. intros H E Hk. inversion H as [d0 _ Q]; subst. apply (Q k); [apply dget_in; exact E|exact Hk]. Qed.
Lemma proper_star d : proper_index d -> dget STAR d = None.
Proof. intros H. destruct (dget STAR d) as [v|] eqn:E; [|reflexivity]. destruct (proper_get H E ltac:(discriminate)) as (_ & Q & _). destruct (Q [] eq_refl). Qed.
Lemma step_char n : n <> areas_name -> forall p d, ~ In areas_name p -> proper_index d ->
  let R := i <- jwalk (JDict d) p ;; match jget i n with Err KeyError => s <- jget i STAR ;; match s with JStr p => Ok (JStr (path_join p n)) | _ => Err TypeError end | r => r end in
  (exists loc, moved_to d p n loc /\ R = Ok (JStr loc)) \/ ((forall loc, ~ moved_to d p n loc) /\ (R = Err KeyError \/ R = Err TypeError \/ R = Ok (JStr []) \/ exists s, R = Ok (JDict s))).
Proof.
  intros Hn. induction p as [|x p IH]; intros d Hp Hd R; subst R; cbn [jwalk jget bind].
  - destruct (dget n d) as [v|] eqn:E.
    + destruct (proper_get Hd E Hn) as (_ & _ & [(loc & ->)|(sub & -> & _)]).
      * destruct loc as [|c loc]; [right; split; [intros l H; inversion H; subst; congruence|right; right; left; reflexivity]|left; exists (c :: loc); split; [apply moved_here; [exact Hn|exact E|discriminate]|reflexivity]].
      * right. split; [intros l H; inversion H; subst; congruence|right; right; right; exists sub; reflexivity].
    + rewrite (proper_star Hd). right. split; [intros l H; inversion H; subst; congruence|left; reflexivity].
  - assert (Hx : x <> areas_name) by (intros ->; apply Hp; left; reflexivity). destruct (dget x d) as [v|] eqn:E; cbn [bind].
    + destruct (proper_get Hd E Hx) as (_ & _ & [(loc & ->)|(sub & -> & Hs)]).
      * right. split; [intros l H; inversion H; subst; congruence|]. right. left. destruct p; reflexivity.
      * destruct (IH sub ltac:(intros Q; apply Hp; right; exact Q) Hs) as [(loc & M & Q)|[M Q]]; [left; exists loc; split; [exact (@moved_deep d x sub p n loc Hx E M)|exact Q]|]. right. split; [|exact Q].
        intros l H. inversion H; subst. rewrite E in *. match goal with Q : Some (JDict _) = Some (JDict _) |- _ => injection Q as -> end. exact (M l ltac:(assumption)).
    + right. split; [intros l H; inversion H; subst; congruence|left; reflexivity].
Qed.
Lemma comps_join p : fits p -> comps (join [47] p) = p.
Proof.
  intros H. destruct p as [|x p]; [reflexivity|]. unfold comps. destruct (join [47] (x :: p)) as [|c r] eqn:E.
  - exfalso. inversion H as [|? ? (Hx & _) _]; subst. destruct x; [congruence|]. destruct p; discriminate.
  - rewrite <- E. change 47 with slash. apply split_ch_join; [discriminate|exact (fits_noslash H)].
Qed.
Lemma place_found d p n : fits p -> ~ In areas_name p -> n <> areas_name -> proper_index d -> forall r, get_dest_path (fun _ => Ok tt) [] (join [47] p) n (JDict d) None = Ok r ->
  (exists loc, moved_to d p n loc /\ r = (source_path loc, basename loc)) \/ ((forall loc, ~ moved_to d p n loc) /\ r = (join [47] p, n)).
Proof.
  intros Hf Hp Hn Hd r H. unfold get_dest_path in H. destruct (jtruthy (JDict d)) eqn:Et.
  - unfold get_from_index in H. rewrite walk_path, (comps_join Hf) in H. pose proof (@step_char n Hn p d Hp Hd) as Q. cbv zeta in Q. revert H.
    destruct Q as [(loc & M & ->)|[M [->|[->|[->|(s & ->)]]]]].
    + cbn [jtruthy]. destruct loc as [|c loc]; [exfalso; clear -M; remember (@nil N) as z in M; induction M; congruence|]. cbv iota. intros H. injection H as <-. left. exists (c :: loc). split; [exact M|reflexivity].
    + intros H. injection H as <-. right. split; [exact M|reflexivity].
    + discriminate.
    + cbn [jtruthy]. intros H. injection H as <-. right. split; [exact M|reflexivity].
    + destruct s as [|e s]; cbn [jtruthy]; [|discriminate]. intros H. injection H as <-. right. split; [exact M|reflexivity].
  - injection H as <-. right. split; [|reflexivity]. destruct d as [|e d]; [|discriminate]. intros loc M. inversion M; discriminate.
Qed.

(** ** Places *)
Lemma rstrip_snoc s c : rstrip_by (N.eqb slash) (s ++ [c]) = if slash =? c then rstrip_by (N.eqb slash) s else s ++ [c].
Proof. unfold rstrip_by. rewrite rev_app_distr. cbn [rev app lstrip_by]. destruct (slash =? c); [reflexivity|]. cbn [rev]. rewrite rev_involutive. reflexivity. Qed.
Lemma enter_rstrip f s : enter f (rstrip_by (N.eqb slash) s) = enter f s.
Proof.
  induction s as [|c s IH] using rev_ind; [reflexivity|]. rewrite rstrip_snoc. destruct (slash =? c) eqn:E; [|reflexivity]. apply N.eqb_eq in E. subst c. rewrite IH. change (s ++ [slash]) with (s ++ slash :: []). rewrite enter_app, enter_nil. reflexivity.
Qed.
Lemma last_part s : In slash s -> exists h e, s = h ++ slash :: e /\ ~ In slash e.
Proof.
  induction s as [|c s IH] using rev_ind; [intros []|]. intros H. destruct (N.eq_dec c slash) as [->|Hc]; [exists s, []; split; [reflexivity|intros []]|].
  apply in_app_or in H. destruct H as [H|[H|[]]]; [|congruence]. destruct (IH H) as (h & e & -> & He). exists h, (e ++ [c]). split; [rewrite <- app_assoc; reflexivity|]. intros Q. apply in_app_or in Q. destruct Q as [Q|[Q|[]]]; [exact (He Q)|congruence].
Qed.
Lemma basename_last loc : basename loc = last (split_ch 47 loc) [].
Proof.
  destruct (in_dec N.eq_dec slash loc) as [H|H].
  - destruct (last_part _ H) as (h & e & -> & He). rewrite basename_app by exact He. change 47 with slash. rewrite split_ch_app, (split_ch_nosep _ _ He), last_last. reflexivity.
  - destruct (dirname_nosep _ H) as [_ ->]. change 47 with slash. rewrite (split_ch_nosep _ _ H). reflexivity.
Qed.
Lemma rel_head loc : (forall r, loc <> 47 :: r) -> is_abs loc = false.
Proof. intros H. unfold is_abs. destruct loc as [|c loc]; [reflexivity|]. cbn [starts]. destruct (slash =? c) eqn:E; [|reflexivity]. apply N.eqb_eq in E. subst. destruct (H loc eq_refl). Qed.
Lemma dirname_enter f loc : (forall r, loc <> 47 :: r) -> fit_name (basename loc) -> enter f loc = enter f (dirname loc) ++ [basename loc] /\ is_abs (dirname loc) = false.
Proof.
  intros Hr Hb. destruct (in_dec N.eq_dec slash loc) as [H|H].
  - destruct (last_part _ H) as (h & e & -> & He). rewrite basename_app in * by exact He. rewrite enter_app, (@enter_one _ e He), walk_fit by exact Hb.
    destruct h as [|c h]; [exfalso; exact (Hr _ eq_refl)|]. assert (Hc : c <> slash) by (intros ->; exact (Hr _ eq_refl)).
    unfold dirname. rewrite path_head_app by exact He. cbn [app forallb]. destruct (slash =? c) eqn:E; [apply N.eqb_eq in E; congruence|]. cbn [andb]. split.
    + rewrite enter_rstrip. change (c :: h ++ [slash]) with ((c :: h) ++ slash :: []). rewrite enter_app, enter_nil. reflexivity.
    + change (c :: h ++ [slash]) with ((c :: h) ++ [slash]). rewrite rstrip_snoc, N.eqb_refl.
      assert (Q : exists t, rstrip_by (N.eqb slash) (c :: h) = c :: t).
      { clear -E. induction h as [|x h IH] using rev_ind; [exists []; unfold rstrip_by; cbn [rev app lstrip_by]; rewrite E; reflexivity|]. change (c :: h ++ [x]) with ((c :: h) ++ [x]). rewrite rstrip_snoc. destruct (slash =? x); [exact IH|exists (h ++ [x]); reflexivity]. }
      destruct Q as (t & ->). unfold is_abs. cbn [starts]. rewrite E. reflexivity.
  - destruct (dirname_nosep _ H) as [Hd E]. rewrite Hd, E in *. rewrite enter_nil, (@enter_one _ loc H), walk_fit by exact Hb. split; reflexivity.
Qed.
Lemma source_up loc : is_abs (dirname loc) = false -> source_path loc = 46 :: 46 :: slash :: dirname loc.
Proof. intros H. unfold source_path, path_joins. cbn [fold_left]. unfold path_join at 2. cbn. unfold path_join. unfold is_abs in H. rewrite H. reflexivity. Qed.
Lemma moved_key dest loc : file_path loc -> file_key dest (source_path loc) (basename loc) = written (place_in (enter [] dest) loc) /\ is_abs (source_path loc) = false /\ fit_name (basename loc) /\
  noslash (place_in (enter [] dest) loc) /\ place_in (enter [] dest) loc <> [].
Proof.
  intros [Hr Hb]. rewrite <- basename_last in Hb. destruct (@dirname_enter (removelast (enter [] dest)) loc Hr Hb) as [E Ha].
  assert (Hq : is_abs (source_path loc) = false) by (rewrite (source_up _ Ha); reflexivity). split; [|split; [exact Hq|split; [exact Hb|split]]].
  - rewrite file_key_written by (first [exact Hq|apply Hb]). unfold place_in. rewrite E, (source_up _ Ha). change (46 :: 46 :: slash :: dirname loc) with ([46; 46] ++ slash :: dirname loc). rewrite enter_app. reflexivity.
  - apply good_nice, nice_enter, nice_removelast, dest_nice.
  - unfold place_in. rewrite E. intros Q. apply app_eq_nil in Q. destruct Q; discriminate.
Qed.
Lemma joins_fit p : fits p -> path_joins [] p = join [47] p.
Proof.
  unfold path_joins. induction p as [|x p IH] using rev_ind; [reflexivity|]. intros H. unfold fits in H. apply Forall_app in H. destruct H as [Hp Hx]. inversion Hx; subst. rewrite fold_left_app, (IH Hp). cbn [fold_left]. apply join_step; assumption.
Qed.
(** an area whose place has an underscore is found from any folder *)
Lemma split_two s : In 95 s -> exists x y t, split_ch 95 s = x :: y :: t.
Proof.
  intros H. destruct (split_ch 95 s) as [|x [|y t]] eqn:E; [destruct (split_ch_nonnil 95 _ E)| |eexists; eexists; eexists; reflexivity]. exfalso.
  apply in_split in H. destruct H as (a & b & ->). rewrite split_ch_app in E. destruct (split_ch 95 a) as [|u l] eqn:E1; [exact (split_ch_nonnil 95 _ E1)|]. destruct (split_ch 95 b) as [|v w] eqn:E2; [exact (split_ch_nonnil 95 _ E2)|]. cbn in E. destruct l; discriminate.
Qed.
Lemma include_any ending table D q q' k : In 95 (target table k) -> include_with ending table D q k = include_with ending table D q' k.
Proof. intros H. unfold include_with. destruct (split_two _ H) as (x & y & t & ->). reflexivity. Qed.
(** ** Entries of the index *)
Lemma entries_cons path e v rest : index_entries path (JDict ((e, v) :: rest)) =
  (if str_eqb e k_areas then index_entries path (JDict rest) else if negb (jtruthy v) then index_entries path (JDict rest) else if starts STAR e then Err ExtExc
   else match v with
        | JDict _ => a <- index_entries (path ++ [e]) v ;; b <- index_entries path (JDict rest) ;; Ok (a ++ b)
        | JStr loc => b <- index_entries path (JDict rest) ;; Ok (mkmoved path e loc :: b)
        | _ => Err ExtExc
        end).
Proof. reflexivity. Qed.
Lemma moved_cons e v rest p n loc : ~ In e (map fst rest) -> (moved_to ((e, v) :: rest) p n loc <->
  (e <> areas_name /\ ((p = [] /\ n = e /\ v = JStr loc /\ loc <> []) \/ exists p' sub, p = e :: p' /\ v = JDict sub /\ moved_to sub p' n loc)) \/ moved_to rest p n loc).
Proof.
  intros He. split.
  - intros H. inversion H as [d n0 l Hn Hd Hl|d x sub p' n0 l Hx Hd Hs]; subst; cbn [dget] in Hd.
    + destruct (str_eqb n e) eqn:E; [apply str_eqb_spec in E; subst; injection Hd as ->; left; split; [exact Hn|left; repeat split; exact Hl]|]. right. apply moved_here; assumption.
    + destruct (str_eqb x e) eqn:E; [apply str_eqb_spec in E; subst; injection Hd as ->; left; split; [exact Hx|right; exists p', sub; repeat split; exact Hs]|]. right. eapply moved_deep; eassumption.
  - assert (Q : forall k w, dget k rest = Some w -> dget k ((e, v) :: rest) = Some w).
    { intros k w Hk. cbn [dget]. destruct (str_eqb k e) eqn:E; [|exact Hk]. apply str_eqb_spec in E. subst. exfalso. apply He. apply dget_in in Hk. apply in_map_iff. exists (e, w). split; [reflexivity|exact Hk]. }
    intros [(He' & [(-> & -> & -> & Hl)|(p' & sub & -> & -> & Hs)])|H].
    + apply moved_here; [exact He'| |exact Hl]. cbn [dget]. rewrite str_eqb_refl. reflexivity.
    + eapply moved_deep; [exact He'| |exact Hs]. cbn [dget]. rewrite str_eqb_refl. reflexivity.
    + inversion H as [d n0 l Hn Hd Hl|d x sub p' n0 l Hx Hd Hs]; subst; [apply moved_here; [exact Hn|apply Q; exact Hd|exact Hl]|eapply moved_deep; [exact Hx|apply Q; exact Hd|exact Hs]].
Qed.
Lemma proper_tail e l : proper_index (e :: l) -> proper_index l.
Proof. intros H. inversion H as [d Hn Q]; subst. cbn [map] in Hn. inversion Hn; subst. constructor; [assumption|]. intros k v Hi. apply Q. right. exact Hi. Qed.
Lemma star_name k : (forall r, k <> 42 :: r) -> starts STAR k = false.
Proof. intros H. destruct k as [|c k]; [reflexivity|]. unfold STAR. cbn [starts]. destruct (42 =? c) eqn:E; [|reflexivity]. apply N.eqb_eq in E. subst. destruct (H k eq_refl). Qed.
Lemma entries_found_in : forall j d, j = JDict d -> proper_index d -> forall path, exists ms, index_entries path (JDict d) = Ok ms /\
  forall m, In m ms <-> exists p, m_path m = path ++ p /\ moved_to d p (m_name m) (m_loc m).
Proof.
  induction j using json_ind2; intros d0 E; try discriminate. injection E as <-. induction H as [|[e v] rest Hv _ IH]; intros Hp path.
  { exists []. split; [reflexivity|]. intros m. split; [intros []|]. intros (p & _ & M). inversion M; discriminate. }
  cbn [snd] in Hv. pose proof (proper_tail Hp) as Hp'. destruct (IH Hp' path) as (ms & E & Hms). clear IH. assert (He : ~ In e (map fst rest)) by (inversion Hp as [d Hn _]; subst; inversion Hn; assumption).
  rewrite entries_cons. destruct (str_eqb e k_areas) eqn:Ea.
  { apply str_eqb_spec in Ea. exists ms. split; [exact E|]. intros m. rewrite Hms. split; intros (p & P1 & P2); exists p; (split; [exact P1|]); [apply (@moved_cons _ _ _ _ _ _ He); right; exact P2|]. apply (@moved_cons _ _ _ _ _ _ He) in P2. destruct P2 as [(Q & _)|P2]; [exfalso; apply Q; exact Ea|exact P2]. }
  assert (He' : e <> areas_name) by (intros Q; apply (proj1 (str_eqb_neq _ _) Ea); exact Q). inversion Hp as [d _ Q]; subst. destruct (Q e v (or_introl eq_refl) He') as (_ & Hs & Hk). rewrite (star_name Hs).
  destruct Hk as [(loc & ->)|(sub & -> & Hsub)].
  - destruct loc as [|c loc]; cbn [jtruthy negb].
    + exists ms. split; [exact E|]. intros m. rewrite Hms. split; intros (p & P1 & P2); exists p; (split; [exact P1|]); [apply (@moved_cons _ _ _ _ _ _ He); right; exact P2|]. apply (@moved_cons _ _ _ _ _ _ He) in P2. destruct P2 as [(_ & [(_ & _ & Z & Z2)|(p' & s0 & _ & Z & _)])|P2]; [injection Z as Z; congruence|discriminate|exact P2].
    + rewrite E. cbn [bind]. eexists. split; [reflexivity|]. intros m. cbn [In]. rewrite Hms. split.
      * intros [<-|(p & P1 & P2)]; [exists []; cbn [m_path m_name m_loc]; split; [symmetry; apply app_nil_r|]; apply (@moved_cons _ _ _ _ _ _ He); left; split; [exact He'|left; repeat split; discriminate]|]. exists p. split; [exact P1|]. apply (@moved_cons _ _ _ _ _ _ He). right. exact P2.
      * intros (p & P1 & P2). apply (@moved_cons _ _ _ _ _ _ He) in P2. destruct P2 as [(_ & [(-> & Z1 & Z2 & _)|(p' & s0 & _ & Z & _)])|P2]; [|discriminate|right; exists p; split; assumption]. left. injection Z2 as Z2. rewrite app_nil_r in P1. destruct m as [mp mn ml]. cbn [m_path m_name m_loc] in *. subst. reflexivity.
  - destruct (Hv sub eq_refl Hsub (path ++ [e])) as (ms1 & E1 & H1). destruct sub as [|x sub0] eqn:Es.
    + cbn [jtruthy negb]. exists ms. split; [exact E|]. intros m. rewrite Hms. split; intros (p & P1 & P2); exists p; (split; [exact P1|]); [apply (@moved_cons _ _ _ _ _ _ He); right; exact P2|]. apply (@moved_cons _ _ _ _ _ _ He) in P2. destruct P2 as [(_ & [(_ & _ & Z & _)|(p' & s & _ & Z & M)])|P2]; [discriminate| |exact P2]. injection Z as <-. inversion M; discriminate.
    + rewrite <- Es in *. assert (Et : jtruthy (JDict sub) = true) by (rewrite Es; reflexivity). rewrite Et. cbn [negb]. rewrite E1, E. cbn [bind]. eexists. split; [reflexivity|]. intros m. rewrite in_app_iff, H1, Hms. split.
      * intros [(p & P1 & P2)|(p & P1 & P2)]; [exists (e :: p); split; [rewrite P1, <- app_assoc; reflexivity|]; apply (@moved_cons _ _ _ _ _ _ He); left; split; [exact He'|right; exists p, sub; repeat split; exact P2]|]. exists p. split; [exact P1|]. apply (@moved_cons _ _ _ _ _ _ He). right. exact P2.
      * intros (p & P1 & P2). apply (@moved_cons _ _ _ _ _ _ He) in P2. destruct P2 as [(_ & [(_ & _ & Z & _)|(p' & s & -> & Z & M)])|P2]; [discriminate| |right; exists p; split; assumption]. injection Z as <-. left. exists p'. split; [rewrite P1, <- app_assoc; reflexivity|exact M].
Qed.
