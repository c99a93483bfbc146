(** Proofs about Index.v: get_from_index and get_dest_path. *)
From Verif Require Import PyBase PyInt Descent Paths Json Index Spec_Descent DescentProofs Spec_Index IndexProofs.
Set Implicit Arguments.
Open Scope list_scope.
Open Scope Z_scope.

(** ** dirname and basename *)
Lemma find_ch_app c a b : ~ In c a -> find_ch c (a ++ c :: b) = Some (length a).
Proof.
  induction a as [|x a IH]; intros H; cbn; [rewrite N.eqb_refl; reflexivity|].
  destruct (N.eqb_spec x c) as [->|Hne]; [exfalso; apply H; left; reflexivity|].
  rewrite IH; [reflexivity|]. intros Hin. apply H. right. exact Hin.
Qed.
Lemma find_ch_none c a : ~ In c a -> find_ch c a = None.
Proof.
  induction a as [|x a IH]; intros H; cbn; [reflexivity|].
  destruct (N.eqb_spec x c) as [->|Hne]; [exfalso; apply H; left; reflexivity|].
  rewrite IH; [reflexivity|]. intros Hin. apply H. right. exact Hin.
Qed.
Lemma last_slash_app h e : ~ In slash e -> last_slash (h ++ slash :: e) = Some (length e).
Proof.
  intros H. unfold last_slash. rewrite rev_app_distr. cbn [rev]. rewrite <- app_assoc. cbn [app].
  rewrite find_ch_app; [rewrite rev_length; reflexivity|]. intros Hin. apply H. apply in_rev. exact Hin.
Qed.
Lemma basename_app h e : ~ In slash e -> basename (h ++ slash :: e) = e.
Proof.
  intros H. unfold basename. rewrite last_slash_app by exact H. rewrite app_length. cbn [length].
  replace (length h + S (length e) - length e)%nat with (length (h ++ [slash])) by (rewrite app_length; cbn; lia).
  change (slash :: e) with ([slash] ++ e). rewrite app_assoc. rewrite skipn_app, skipn_all, Nat.sub_diag. reflexivity.
Qed.
Lemma path_head_app h e : ~ In slash e -> path_head (h ++ slash :: e) = h ++ [slash].
Proof.
  intros H. unfold path_head. rewrite last_slash_app by exact H. rewrite app_length. cbn [length].
  replace (length h + S (length e) - length e)%nat with (length (h ++ [slash])) by (rewrite app_length; cbn; lia).
  change (slash :: e) with ([slash] ++ e). rewrite app_assoc. rewrite firstn_app, firstn_all, Nat.sub_diag. cbn [firstn]. apply app_nil_r.
Qed.
Lemma dirname_app h e : ~ In slash e -> h <> [] -> ends [slash] h = false -> dirname (h ++ slash :: e) = h.
Proof.
  intros H Hne He. unfold dirname. rewrite path_head_app by exact H.
  destruct (ends_slash_app h Hne He) as (x & l & -> & Hx).
  assert (forallb (N.eqb slash) ((l ++ [x]) ++ [slash]) = false) as ->.
  { rewrite !forallb_app. cbn [forallb]. destruct (N.eqb_spec slash x) as [E|_]; [congruence|]. cbn [andb]. rewrite !andb_false_r. reflexivity. }
  unfold rstrip_by. rewrite rev_app_distr. cbn [rev app lstrip_by]. rewrite N.eqb_refl. rewrite rev_app_distr. cbn [rev app lstrip_by].
  destruct (N.eqb_spec slash x) as [E|_]; [congruence|]. cbn [rev]. rewrite rev_involutive. reflexivity.
Qed.
Lemma dirname_nosep e : ~ In slash e -> dirname e = [] /\ basename e = e.
Proof.
  intros H. unfold dirname, path_head, basename, last_slash. rewrite find_ch_none by (intros Hin; apply H; apply in_rev; exact Hin).
  split; reflexivity.
Qed.

(** ** joining plain names *)
Lemma plain_last n : plain_name n -> ends [slash] n = false.
Proof.
  intros (H1 & H2 & _). destruct (ends [slash] n) eqn:E; [|reflexivity]. apply ends_spec in E. destruct E as [t ->].
  exfalso. apply H2. apply in_or_app. right. left. reflexivity.
Qed.
Lemma ends_cons c s d : s <> [] -> ends [c] (d :: s) = ends [c] s.
Proof.
  intros H. destruct (exists_last H) as (l & x & ->). unfold ends. cbn [rev]. rewrite rev_app_distr. cbn. rewrite !andb_true_r. reflexivity.
Qed.
Lemma ends_app_ne c a s : s <> [] -> ends [c] (a ++ s) = ends [c] s.
Proof. intros H. induction a as [|x a IH]; [reflexivity|]. cbn [app]. rewrite ends_cons; [exact IH|]. destruct a; [exact H|discriminate]. Qed.
Lemma join_ne p : p <> [] -> Forall plain_name p -> join [slash] p <> [].
Proof.
  intros Hp H. destruct p as [|n p]; [congruence|]. inversion H as [|? ? (Hn & _) _]; subst. cbn. destruct p; [exact Hn|].
  destruct n; [congruence|discriminate].
Qed.
Lemma join_ends p : p <> [] -> Forall plain_name p -> ends [slash] (join [slash] p) = false.
Proof.
  induction p as [|n p IH]; [congruence|]. intros _ H. inversion H as [|? ? Hn Hp]; subst. destruct p as [|m p]; [apply plain_last; exact Hn|].
  rewrite join_cons by discriminate. rewrite app_assoc, ends_app_ne by (apply join_ne; [discriminate|exact Hp]). apply IH; [discriminate|exact Hp].
Qed.
Lemma join_not_abs p : p <> [] -> Forall plain_name p -> is_abs (join [slash] p) = false.
Proof.
  intros Hp H. destruct p as [|n p]; [congruence|]. inversion H as [|? ? Hn _]; subst.
  pose proof (plain_not_abs n Hn) as Ha. destruct n as [|c n]; [destruct Hn; congruence|].
  cbn. destruct p; exact Ha.
Qed.
Lemma join_snoc p e : p <> [] -> join [slash] (p ++ [e]) = join [slash] p ++ slash :: e.
Proof. intros H. rewrite join_app by (try exact H; discriminate). reflexivity. Qed.
Lemma path_join_plain a n : a <> [] -> ends [slash] a = false -> plain_name n -> path_join a n = a ++ slash :: n.
Proof.
  intros Ha He Hn. unfold path_join. pose proof (plain_not_abs n Hn) as Hb. unfold is_abs in Hb. rewrite Hb, He. destruct a; [congruence|reflexivity].
Qed.
Lemma path_joins_plain p : Forall plain_name p -> path_joins [] p = join [slash] p.
Proof.
  induction p as [|e p IH] using rev_ind; intros H; [reflexivity|]. apply Forall_app in H. destruct H as [Hp He]. inversion He; subst.
  unfold path_joins in *. rewrite fold_left_app. cbn [fold_left]. rewrite IH by exact Hp.
  destruct p as [|n p]; [|rewrite join_snoc by discriminate; apply path_join_plain; [apply join_ne|apply join_ends|]; try discriminate; assumption].
  cbn. unfold path_join. pose proof (plain_not_abs e ltac:(assumption)) as Hb. unfold is_abs in Hb. rewrite Hb. reflexivity.
Qed.
Lemma path_join_dir a q : a <> [] -> is_abs q = false -> path_join a q = a ++ (if ends [slash] a then [] else [slash]) ++ q.
Proof.
  intros Ha Hq. unfold path_join. unfold is_abs in Hq. rewrite Hq. destruct a as [|c a]; [congruence|]. cbn [orb].
  destruct (ends [slash] (c :: a)); reflexivity.
Qed.
Lemma location_under dest p e : dest <> [] -> Forall plain_name (p ++ [e]) ->
  location dest (path_joins [] p) e = under dest (p ++ [e]).
Proof.
  intros Hd H. apply Forall_app in H. destruct H as [Hp He]. inversion He as [|? ? He' _]; subst.
  unfold location. destruct dest as [|c dest0] eqn:Ed; [congruence|]. rewrite <- Ed in *. clear c dest0 Ed. cbn [path_joins fold_left].
  rewrite (path_joins_plain Hp). unfold under. change 47%N with slash. destruct p as [|n p].
  - cbn [app join]. rewrite (@path_join_dir dest []) by (auto; discriminate). rewrite app_nil_r.
    set (b := dest ++ (if ends [slash] dest then [] else [slash])).
    assert (Hb : b <> []) by (unfold b; destruct dest; [congruence|discriminate]).
    assert (Heb : ends [slash] b = true).
    { unfold b. destruct (ends [slash] dest) eqn:E; [rewrite app_nil_r; exact E|]. apply ends_spec. exists dest. reflexivity. }
    rewrite path_join_dir; [|exact Hb|apply plain_not_abs; exact He']. rewrite Heb. cbn [app]. unfold b. rewrite <- app_assoc. reflexivity.
  - assert (Hnn : n :: p <> []) by discriminate. rewrite join_snoc by exact Hnn.
    rewrite (@path_join_dir dest (join [slash] (n :: p))); [|exact Hd|apply join_not_abs; assumption].
    rewrite path_join_plain; [rewrite <- !app_assoc; reflexivity|destruct dest; [congruence|discriminate]| |exact He'].
    rewrite app_assoc, ends_app_ne by (apply join_ne; assumption). apply join_ends; assumption.
Qed.

(** ** get_from_index *)
Definition comps (path : list N) : list (list N) := match path with [] => [] | _ => split_ch slash path end.
Lemma jwalk_dict p : forall d v, at_path p d = Some v -> jwalk (JDict d) p = Ok v.
Proof.
  induction p as [|k p IH]; intros d v H; [exact (f_equal _ (f_equal (fun o => match o with Some x => x | None => v end) H))|].
  cbn [jwalk jget]. cbn [at_path] in H. destruct (dget k d) as [w|]; [|discriminate]. cbn [bind].
  destruct p as [|k' p]; [injection H as ->; reflexivity|]. destruct w as [| | | | |d']; try discriminate. apply IH. exact H.
Qed.
Lemma jwalk_app p q : forall j, jwalk j (p ++ q) = (x <- jwalk j p ;; jwalk x q).
Proof. induction p as [|k p IH]; intros j; [reflexivity|]. cbn [app jwalk]. destruct (jget j k); [apply IH|reflexivity]. Qed.

Lemma walk_path path d : match path with [] => Ok (JDict d) | _ => jwalk (JDict d) (split_ch slash path) end = jwalk (JDict d) (comps path).
Proof. destruct path; reflexivity. Qed.

Lemma gfi_found d path file s v : at_path (comps path) d = Some (JDict s) -> dget file s = Some v -> get_from_index (JDict d) path file = Ok v.
Proof. intros H Hv. unfold get_from_index. rewrite walk_path, (jwalk_dict _ _ H). cbn [bind jget]. rewrite Hv. reflexivity. Qed.
Lemma gfi_star d path file s q : at_path (comps path) d = Some (JDict s) -> dget file s = None -> dget STAR s = Some (JStr q) ->
  get_from_index (JDict d) path file = Ok (JStr (path_join q file)).
Proof. intros H Hv Hs. unfold get_from_index. rewrite walk_path, (jwalk_dict _ _ H). cbn [bind jget]. rewrite Hv, Hs. reflexivity. Qed.
Lemma gfi_none d path file s : at_path (comps path) d = Some (JDict s) -> dget file s = None -> dget STAR s = None ->
  get_from_index (JDict d) path file = Err KeyError.
Proof. intros H Hv Hs. unfold get_from_index. rewrite walk_path, (jwalk_dict _ _ H). cbn [bind jget]. rewrite Hv, Hs. reflexivity. Qed.
Lemma gfi_missing d path file p1 k p2 s : comps path = p1 ++ k :: p2 -> at_path p1 d = Some (JDict s) -> dget k s = None ->
  get_from_index (JDict d) path file = Err KeyError.
Proof.
  intros Hp H Hk. unfold get_from_index. rewrite walk_path, Hp, jwalk_app, (jwalk_dict _ _ H). cbn [bind jwalk jget]. rewrite Hk. reflexivity.
Qed.
Lemma gfi_level d path file p1 p2 v : comps path = p1 ++ p2 -> at_path p1 d = Some v -> leaf v ->
  get_from_index (JDict d) path file = Err ExtExc.
Proof.
  intros Hp H Hl. unfold get_from_index. rewrite walk_path, Hp, jwalk_app, (jwalk_dict _ _ H). cbn [bind].
  assert (Hg : forall k, jget v k = Err TypeError) by (intros k; destruct v; try reflexivity; exfalso; eapply Hl; reflexivity).
  destruct p2 as [|k p2]; cbn [jwalk bind]; rewrite Hg; reflexivity.
Qed.

(** ** get_dest_path *)
Definition relocated (r : list N) (descent : option Z) : list N * list N :=
  (path_joins dot2 [match descent with None => [] | Some _ => dot2 end; dirname r], basename r).
Lemma gdp_string mk dest path file d descent r : d <> [] -> (forall x, mk x = Ok tt \/ mk x = Err FileExistsError) -> r <> [] ->
  get_from_index (JDict d) path file = Ok (JStr r) -> get_dest_path mk dest path file (JDict d) descent = Ok (relocated r descent).
Proof.
  intros Hd Hmk Hr H. unfold get_dest_path. destruct d as [|e d]; [congruence|]. cbn [jtruthy]. rewrite H.
  destruct r as [|c r]; [congruence|]. cbn [jtruthy]. match goal with |- context [mk ?x] => destruct (Hmk x) as [-> | ->]; reflexivity end.
Qed.
Lemma gdp_falsy mk dest path file d descent v : jtruthy v = false ->
  get_from_index (JDict d) path file = Ok v -> get_dest_path mk dest path file (JDict d) descent = Ok (path, file).
Proof.
  intros Hv H. unfold get_dest_path. destruct (jtruthy (JDict d)); [|reflexivity]. rewrite H, Hv. reflexivity.
Qed.
Lemma gdp_key mk dest path file d descent :
  get_from_index (JDict d) path file = Err KeyError -> get_dest_path mk dest path file (JDict d) descent = Ok (path, file).
Proof. intros H. unfold get_dest_path. destruct (jtruthy (JDict d)); [|reflexivity]. rewrite H. reflexivity. Qed.
Lemma gdp_ext mk dest path file d descent : d <> [] ->
  get_from_index (JDict d) path file = Err ExtExc -> get_dest_path mk dest path file (JDict d) descent = Err ExtExc.
Proof. intros Hd H. unfold get_dest_path. destruct d; [congruence|]. cbn [jtruthy]. rewrite H. reflexivity. Qed.

Lemma comps_join p : Forall plain_name p -> comps (join [slash] p) = p.
Proof.
  intros H. destruct p as [|n p]; [reflexivity|]. unfold comps.
  destruct (join [slash] (n :: p)) as [|c s] eqn:E; [exfalso; eapply join_ne; [|exact H|exact E]; discriminate|].
  rewrite <- E. apply split_ch_join; [discriminate|]. eapply Forall_impl; [|exact H]. intros a (_ & Ha & _). exact Ha.
Qed.
Lemma at_path_snoc p : forall e d v, at_path (p ++ [e]) d = Some v -> exists s, at_path p d = Some (JDict s) /\ dget e s = Some v.
Proof.
  induction p as [|k p IH]; intros e d v H.
  - cbn in H. destruct (dget e d) as [w|] eqn:E; [|discriminate]. injection H as ->. exists d. split; [reflexivity|exact E].
  - cbn [app] in H. rewrite at_path_cons' in H by (destruct p; discriminate). destruct (dget k d) as [[| | | | |d']|] eqn:E; try discriminate.
    destruct (IH e d' v H) as (s & H1 & H2). exists s. split; [|exact H2]. destruct p as [|k' p].
    + cbn [at_path]. rewrite E. injection H1 as ->. reflexivity.
    + rewrite at_path_cons' by discriminate. rewrite E. exact H1.
Qed.
Lemma relocated_under root p e descent : root <> [] -> ends [slash] root = false -> is_abs root = false -> Forall plain_name (p ++ [e]) ->
  relocated (under root (p ++ [e])) descent =
    (join [slash] (dot2 :: (match descent with None => [] | Some _ => [dot2] end) ++ root :: p), e).
Proof.
  intros Hr He Ha H. apply Forall_app in H. destruct H as [Hp Hee]. inversion Hee as [|? ? He' _]; subst.
  assert (Hns : ~ In slash e) by (destruct He' as (_ & Hx & _); exact Hx).
  unfold relocated, under. change 47%N with slash. rewrite He.
  assert (E : root ++ [slash] ++ join [slash] (p ++ [e]) = join [slash] (root :: p) ++ slash :: e).
  { destruct p as [|n p]; [reflexivity|]. rewrite join_snoc by discriminate. rewrite (@join_cons [slash] root (n :: p)) by discriminate. rewrite <- !app_assoc. reflexivity. }
  rewrite E.
  assert (Hj1 : join [slash] (root :: p) <> []) by (destruct p; cbn; [exact Hr|destruct root; [congruence|discriminate]]).
  assert (Hj2 : ends [slash] (join [slash] (root :: p)) = false).
  { destruct p as [|n p]; [exact He|]. rewrite join_cons by discriminate. rewrite app_assoc, ends_app_ne; [|apply join_ne; [discriminate|exact Hp]]. apply join_ends; [discriminate|exact Hp]. }
  assert (Hj3 : is_abs (join [slash] (root :: p)) = false).
  { destruct root as [|c root]; [congruence|]. cbn [join]. destruct p; exact Ha. }
  rewrite dirname_app, basename_app by assumption. f_equal.
  cbn [path_joins fold_left]. destruct descent.
  - change (path_join dot2 dot2) with (dot2 ++ slash :: dot2). rewrite path_join_dir; [|discriminate|exact Hj3].
    change (ends [slash] (dot2 ++ slash :: dot2)) with false. cbn [app]. rewrite (@join_cons [slash] dot2 (dot2 :: root :: p)) by discriminate. rewrite (@join_cons [slash] dot2 (root :: p)) by discriminate. reflexivity.
  - change (path_join dot2 []) with (dot2 ++ [slash]). rewrite path_join_dir; [|discriminate|exact Hj3].
    change (ends [slash] (dot2 ++ [slash])) with true. cbn [app]. rewrite (@join_cons [slash] dot2 (root :: p)) by discriminate. reflexivity.
Qed.
