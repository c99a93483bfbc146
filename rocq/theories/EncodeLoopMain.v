(** The loop of EncodeLoop.v computes the bottom-up assembly, whatever the schedule. *)
From Coq Require Import String Permutation.
From Verif Require Import PyBase Container ContainerProofs UpdateDictProofs OrgCodeProofs EncodeLoop EncodeLoopProofs Spec_Encode.
Set Implicit Arguments.
Open Scope list_scope.
Open Scope N_scope.

Section M.
Variables D Pt Ft : Type.
Variable lower : list N -> list N.
Variable finish : info Pt -> tindex D -> res (option D * list Ft).
Notation entry := (entry D).
Notation tindex := (tindex D).
Notation pindex := (pindex D).
Notation info := (info Pt).
Notation node := (node Pt).
Notation task := (task D Pt).
Notation state := (state D Pt Ft).
Notation run_task := (run_task finish).
Notation collect := (collect finish).
Notation loop := (loop finish).
Notation kid := (list N * entry)%type.

(** ** Bottom-up assembly as a function *)
Definition group (ks : list kid) : tindex := map (fun k => (fst k, sel_t (fst k) ks)) ks.
Lemma of_group ks t : of_type (group ks) t = sel_t t ks.
Proof.
  unfold group, of_type. 
  assert (H : forall l, (dget t (map (fun k : kid => (fst k, sel_t (fst k) ks)) l) = if existsb (fun k : kid => str_eqb t (fst k)) l then Some (sel_t t ks) else None)).
  { induction l as [|[k e] l IH]; [reflexivity|]. cbn. destruct (str_eqb t k) eqn:E; [apply str_eqb_spec in E; subst; reflexivity|exact IH]. }
  rewrite H. destruct (existsb _ ks) eqn:E; [reflexivity|]. unfold sel_t. clear H. induction ks as [|[k e] ks IH]; [reflexivity|]. cbn in *.
  apply orb_false_iff in E. destruct E as [E1 E2]. rewrite E1. apply IH. exact E2.
Qed.
Definition own_kid (i : info) (d : option D) : list kid := match d with Some d => [(i_type i, (i_name i, (i_uuid i, d)))] | None => [] end.
Definition finished (i : info) (idx : tindex) : res (list kid * list Ft) :=
  ' (d, fs) <- finish i idx ;; Ok (own_kid i d, fs).
Fixpoint build (n : node) : res (list kid * list Ft) :=
  let 'Node i cs := n in
  if negb (i_marked i) then Ok ([], [])
  else match cs with
       | [] => finished i []
       | _ =>
         ' (ks, fs) <- (fix all (l : list node) : res (list kid * list Ft) :=
                          match l with
                          | [] => Ok ([], [])
                          | c :: r => ' (k, f) <- build c ;; ' (k2, f2) <- all r ;; Ok (k ++ k2, f ++ f2)
                          end) cs ;;
         match ks with
         | [] => Err KeyError
         | _ => if str_eqb (i_class i) (i_type i)
                then ' (k, f) <- finished i (group ks) ;; Ok (k, fs ++ f) else Err ExtExc
         end
       end.
Fixpoint build_all (l : list node) : res (list kid * list Ft) :=
  match l with
  | [] => Ok ([], [])
  | c :: r => ' (k, f) <- build c ;; ' (k2, f2) <- build_all r ;; Ok (k ++ k2, f ++ f2)
  end.
Definition nok (n : node) : bool := match build n with Ok _ => true | Err _ => false end.
Definition nk (n : node) : list kid := match build n with Ok (k, _) => k | Err _ => [] end.
Definition nf (n : node) : list Ft := match build n with Ok (_, f) => f | Err _ => [] end.
Lemma build_all_ok l : forallb nok l = true -> build_all l = Ok (flat_map nk l, flat_map nf l).
Proof.
  induction l as [|c l IH]; [reflexivity|]. cbn [forallb build_all flat_map]. intros H. apply andb_true_iff in H. destruct H as [H1 H2].
  rewrite (IH H2). unfold nok, nk, nf in *. destruct (build c) as [[k f]|]; [reflexivity|discriminate].
Qed.
Lemma build_all_err l : forallb nok l = false -> exists e, build_all l = Err e.
Proof.
  induction l as [|c l IH]; [discriminate|]. cbn [forallb build_all]. unfold nok at 1. destruct (build c) as [[k f]|e]; [|exists e; reflexivity].
  cbn [andb]. intros H. destruct (IH H) as [e He]. rewrite He. exists e. reflexivity.
Qed.
Lemma build_eq i cs : build (Node i cs) =
  if negb (i_marked i) then Ok ([], [])
  else match cs with
       | [] => finished i []
       | _ => ' (ks, fs) <- build_all cs ;;
              match ks with
              | [] => Err KeyError
              | _ => if str_eqb (i_class i) (i_type i)
                then ' (k, f) <- finished i (group ks) ;; Ok (k, fs ++ f) else Err ExtExc
              end
       end.
Proof.
  cbn [build]. destruct (negb (i_marked i)); [reflexivity|]. destruct cs as [|c cs]; [reflexivity|].
  reflexivity.
Qed.

(** ** Well formed source trees *)
Notation wf := (wf lower).
Notation distinct_siblings := (distinct_siblings lower).
Lemma height_child (i : info) (cs : list node) c : In c cs -> (height c < height (Node i cs))%nat.
Proof.
  cbn [height]. induction cs as [|x cs IH]; [contradiction|]. intros [->|H]; cbn [fold_right]; [lia|]. specialize (IH H). lia.
Qed.

Lemma nk_shape n : nk n = [] \/ exists d, nk n = [(i_type (n_info n), (i_name (n_info n), (i_uuid (n_info n), d)))] /\ i_marked (n_info n) = true.
Proof.
  unfold nk. destruct n as [i cs]. rewrite build_eq. cbn [n_info]. destruct (i_marked i); [|left; reflexivity]. cbn [negb].
  assert (H : forall ss, match finished i ss with Ok (k, _) => k = [] \/ exists d, k = [(i_type i, (i_name i, (i_uuid i, d)))] | Err _ => True end).
  { intros ss. unfold finished. destruct (finish i ss) as [[[d|] fs]|]; cbn; [right; exists d; reflexivity|left; reflexivity|exact I]. }
  destruct cs as [|c cs].
  - specialize (H []). destruct (finished i []) as [[k f]|]; [|left; reflexivity]. destruct H as [->|[d ->]]; [left; reflexivity|right; exists d; auto].
  - destruct (build_all (c :: cs)) as [[ks fs]|]; [|left; reflexivity]. cbn [bind]. destruct ks as [|k0 ks]; [left; reflexivity|].
    destruct (str_eqb (i_class i) (i_type i)); [|left; reflexivity].
    specialize (H (group (k0 :: ks))).
    destruct (finished i (group (k0 :: ks))) as [[k f]|]; [|left; reflexivity]. cbn [bind]. destruct H as [->|[d ->]]; [left; reflexivity|right; exists d; auto].
Qed.
Lemma sel_kids t l : exists l', (forall x, In x l' -> In x (siblings t l)) /\
  map fst (sel_t t (flat_map nk l)) = map (fun n => i_name (n_info n)) l' /\
  map (fun e : entry => lower (fst (snd e))) (sel_t t (flat_map nk l)) = map (fun n => lower (i_uuid (n_info n))) l' /\
  (NoDup (map (fun n => i_name (n_info n)) (siblings t l)) -> NoDup (map (fun n => i_name (n_info n)) l')) /\
  (NoDup (map (fun n => lower (i_uuid (n_info n))) (siblings t l)) -> NoDup (map (fun n => lower (i_uuid (n_info n))) l')).
Proof.
  induction l as [|n l (l' & H1 & H2 & H3 & H4 & H5)]; [exists []; split; [intros ? []|]; repeat split; intros _; constructor|].
  cbn [flat_map]. rewrite sel_t_app. unfold siblings in *. cbn [filter]. destruct (nk_shape n) as [->|(d & -> & Hm)].
  - exists l'. cbn [app]. destruct (i_marked (n_info n) && str_eqb t (i_type (n_info n))).
    + split; [intros x Hx; right; apply H1; exact Hx|]. split; [exact H2|]. split; [exact H3|]. split; [intros Hn; inversion Hn; subst; apply H4; assumption|intros Hn; inversion Hn; subst; apply H5; assumption].
    + split; [exact H1|]. auto.
  - rewrite Hm. cbn [andb]. unfold sel_t at 1 3. cbn [filter fst map app]. destruct (str_eqb t (i_type (n_info n))) eqn:E; cbn [map app snd fst].
    + exists (n :: l'). split; [intros x [<-|Hx]; [left; reflexivity|right; apply H1; exact Hx]|]. cbn [map]. split; [rewrite H2; reflexivity|]. split; [rewrite H3; reflexivity|].
      split; intros Hn; inversion Hn as [|? ? Hx Hr]; subst; constructor; auto.
      * intros Hin. apply Hx. apply in_map_iff in Hin. destruct Hin as (y & Ey & Hy). apply in_map_iff. exists y. split; [exact Ey|apply H1; exact Hy].
      * intros Hin. apply Hx. apply in_map_iff in Hin. destruct Hin as (y & Ey & Hy). apply in_map_iff. exists y. split; [exact Ey|apply H1; exact Hy].
    + exists l'. split; [exact H1|]. auto.
Qed.
Lemma kids_distinct l : distinct_siblings l -> distinct_kids lower (flat_map nk l).
Proof.
  intros [_ H] t. destruct (sel_kids t l) as (l' & _ & E1 & E2 & H4 & H5). rewrite E1, E2. destruct (H t). auto.
Qed.
(** The handler does not see the order of the entries. *)
Hypothesis order_free : forall i (a b : tindex), (forall t, Permutation (of_type a t) (of_type b t)) -> (a = [] <-> b = []) ->
  (forall t, NoDup (map fst (of_type a t)) /\ NoDup (map (fun e : entry => lower (fst (snd e))) (of_type a t))) -> finish i a = finish i b.
Lemma fill_group i ks d : distinct_kids lower ks -> tok d ks -> ks <> [] -> finish i d = finish i (group ks).
Proof.
  intros Hd (H1 & H2 & H3) Hne. apply order_free.
  - intros t. rewrite of_group. apply H2.
  - split; [intros E; destruct (Hne (H3 E))|]. intros E. unfold group in E. apply map_eq_nil in E. destruct (Hne E).
  - intros t. specialize (H2 t). destruct (Hd t) as [N1 N2]. split; [refine (Permutation_NoDup _ N1)|refine (Permutation_NoDup _ N2)]; apply Permutation_map; symmetry; exact H2.
Qed.

(** ** Tasks *)
Definition tkey (t : task) : list N := obj_id (t_parent t) (i_type (n_info (t_node t))) (i_folder (n_info (t_node t))).
Definition isparent (t : task) : bool := i_marked (n_info (t_node t)) && match n_children (t_node t) with [] => false | _ => true end.
Definition kids (t : task) : list task := map (fun c => mktask c (tkey t) []) (n_children (t_node t)).
Definition okb (t : task) : bool := nok (t_node t).
Definition kof (t : task) : list (ctr D) := map (pair (t_parent t)) (nk (t_node t)).
Definition fof (t : task) : list Ft := nf (t_node t).
Definition efiles (t : task) := match run_task t with Ok (Done _ _ _ fs) => fs | _ => [] end.
Definition ectr (t : task) : list (ctr D) := match run_task t with Ok (Done p ty (Some e) _) => [(p, (ty, e))] | _ => [] end.
Definition eobjs (t : task) : list task := match run_task t with Ok (Parent o _) => [o] | _ => [] end.
Definition ekids (t : task) : list task := match run_task t with Ok (Parent _ c) => c | _ => [] end.
Definition runs (t : task) : bool := match run_task t with Ok _ => true | Err _ => false end.

Lemma collect_ok ts : forall r cs, forallb runs ts = true -> pok (r_index r) cs ->
  exists r', collect ts r = Ok r' /\ r_files r' = r_files r ++ flat_map efiles ts /\ pok (r_index r') (cs ++ flat_map ectr ts) /\
    r_objs r' = r_objs r ++ flat_map eobjs ts /\ r_children r' = r_children r ++ flat_map ekids ts.
Proof.
  induction ts as [|t ts IH]; intros r cs Hr Hp; cbn [forallb EncodeLoop.collect flat_map] in *.
  - exists r. rewrite !app_nil_r. auto.
  - apply andb_true_iff in Hr. destruct Hr as [H1 H2]. unfold runs in H1. unfold efiles, ectr, eobjs, ekids. destruct (run_task t) as [x|] eqn:E; [|discriminate]. cbn [bind].
    destruct x as [|o cs'|p ty [e|] fs].
    + apply IH; assumption.
    + destruct (IH (mkround (r_files r) (r_index r) (r_objs r ++ [o]) (r_children r ++ cs')) cs H2 Hp) as (r' & E' & A & B & C & F).
      exists r'. split; [exact E'|]. cbn [r_files r_objs r_children] in *. split; [exact A|]. split; [exact B|]. rewrite C, F, <- !app_assoc. auto.
    + destruct (IH (mkround (r_files r ++ fs) (add_entry p ty e (r_index r)) (r_objs r) (r_children r)) (cs ++ [(p, (ty, e))]) H2) as (r' & E' & A & B & C & F); [apply pok_add; exact Hp|].
      exists r'. split; [exact E'|]. cbn [r_files r_objs r_children] in *. split; [rewrite A, <- app_assoc; reflexivity|]. split; [rewrite <- app_assoc in B; exact B|]. auto.
    + destruct (IH (mkround (r_files r ++ fs) (r_index r) (r_objs r) (r_children r)) cs H2 Hp) as (r' & E' & A & B & C & F).
      exists r'. split; [exact E'|]. cbn [r_files r_objs r_children] in *. split; [rewrite A, <- app_assoc; reflexivity|]. auto.
Qed.
Lemma collect_err ts : forall r, forallb runs ts = false -> exists e, collect ts r = Err e.
Proof.
  induction ts as [|t ts IH]; intros r; cbn [forallb EncodeLoop.collect]; [discriminate|]. unfold runs at 1. destruct (run_task t) as [x|e]; [|exists e; reflexivity].
  cbn [andb bind]. apply IH.
Qed.

(** first-pass tasks *)
Lemma run_first t : t_index t = [] ->
  (isparent t = true /\ run_task t = Ok (Parent t (kids t))) \/
  (isparent t = false /\ runs t = okb t /\ (okb t = true -> efiles t = fof t /\ ectr t = kof t) /\ eobjs t = [] /\ ekids t = []).
Proof.
  intros Hi. unfold efiles, ectr, eobjs, ekids, runs, isparent, okb, fof, kof, nok, nk, nf, kids, EncodeLoop.run_task. destruct t as [[i cs] p idx]. cbn in Hi. subst idx.
  cbn [t_node t_parent t_index n_info n_children]. rewrite build_eq. destruct (i_marked i); cbn [negb andb].
  - destruct cs as [|c cs]; [right|left; split; reflexivity]. split; [reflexivity|]. unfold finished. destruct (finish i []) as [[d fs]|e]; cbn [bind].
    + split; [reflexivity|]. split; [intros _; split; [reflexivity|]; destruct d; reflexivity|]. split; reflexivity.
    + split; [reflexivity|]. split; [discriminate|]. split; reflexivity.
  - right. split; [reflexivity|]. split; [reflexivity|]. split; [intros _; split; reflexivity|]. split; reflexivity.
Qed.

(** ** Depth of identifiers *)
Definition depth (p : list N) : nat := count_occ N.eq_dec p 47.
Lemma count_app (a b : list N) x : count_occ N.eq_dec (a ++ b) x = (count_occ N.eq_dec a x + count_occ N.eq_dec b x)%nat.
Proof. induction a as [|y a IH]; [reflexivity|]. cbn. destruct (N.eq_dec y x); rewrite IH; reflexivity. Qed.
Lemma depth_obj p t f : ~ In 47 t -> ~ In 47 f -> depth (obj_id p t f) = S (S (depth p)).
Proof.
  intros Ht Hf. unfold depth, obj_id. rewrite !count_app. cbn [count_occ]. rewrite (proj1 (count_occ_not_In N.eq_dec t 47) Ht), (proj1 (count_occ_not_In N.eq_dec f 47) Hf).
  destruct (N.eq_dec 47 47); [lia|congruence].
Qed.
Lemma last_slash a b c d : ~ In 47 b -> ~ In 47 d -> a ++ 47 :: b = c ++ 47 :: d -> a = c /\ b = d.
Proof.
  intros Hb Hd E. assert (H : forall s, ~ In 47 s -> forall r s', ~ In 47 s' -> forall r', s ++ 47 :: r = s' ++ 47 :: r' -> s = s' /\ r = r').
  { clear. induction s as [|x s IH]; intros Hs r s' Hs' r' E; destruct s' as [|y s']; cbn in E.
    - injection E as ->. auto.
    - injection E as <- _. exfalso. apply Hs'. left. reflexivity.
    - injection E as -> _. exfalso. apply Hs. left. reflexivity.
    - injection E as -> E. destruct (IH (fun H => Hs (or_intror H)) r s' (fun H => Hs' (or_intror H)) r' E) as [-> ->]. auto. }
  apply (f_equal (@rev N)) in E. rewrite !rev_app_distr in E. cbn in E. rewrite <- !app_assoc in E. cbn in E.
  apply H in E; [|rewrite <- in_rev; exact Hb|rewrite <- in_rev; exact Hd]. destruct E as [E1 E2].
  split; [rewrite <- (rev_involutive a), E2, rev_involutive|rewrite <- (rev_involutive b), E1, rev_involutive]; reflexivity.
Qed.
Lemma obj_id_inj p t f p' t' f' : ~ In 47 t -> ~ In 47 f -> ~ In 47 t' -> ~ In 47 f' -> obj_id p t f = obj_id p' t' f' -> p = p' /\ t = t' /\ f = f'.
Proof.
  intros Ht Hf Ht' Hf' E. unfold obj_id in E. cbn [app] in E.
  assert (E' : (p ++ 47 :: t) ++ 47 :: f = (p' ++ 47 :: t') ++ 47 :: f') by (rewrite <- !app_assoc; exact E).
  apply last_slash in E'; [|assumption|assumption]. destruct E' as [E1 ->]. apply last_slash in E1; [|assumption|assumption]. destruct E1 as [-> ->]. auto.
Qed.

(** ** Levels *)
Definition good (d : nat) (T : list task) : Prop :=
  (forall t, In t T -> t_index t = [] /\ wf (t_node t) /\ depth (t_parent t) = d) /\ NoDup (map tkey T).
Lemma wf_names (n : node) : wf n -> ~ In 47 (i_type (n_info n)) /\ ~ In 47 (i_folder (n_info n)).
Proof. destruct 1; auto. Qed.
Lemma wf_child (i : info) (cs : list node) c : wf (Node i cs) -> In c cs -> wf c.
Proof. intros H. inversion H; subst. auto. Qed.
Lemma nodup_flat {A B} (f : A -> list B) l : NoDup l -> (forall x, In x l -> NoDup (f x)) -> (forall x y b, In x l -> In y l -> In b (f x) -> In b (f y) -> x = y) -> NoDup (flat_map f l).
Proof.
  induction l as [|x l IH]; intros Hn H1 H2; [constructor|]. cbn. inversion Hn as [|? ? Hx Hr]; subst.
  assert (Hl : NoDup (flat_map f l)) by (apply IH; [exact Hr|intros y Hy; apply H1; right; exact Hy|intros a b c Ha Hb; apply H2; right; assumption]).
  assert (Hd : forall b, In b (f x) -> ~ In b (flat_map f l)).
  { intros b Hb Hin. apply in_flat_map in Hin. destruct Hin as (y & Hy & Hby). assert (x = y) by (apply (H2 x y b); [left; reflexivity|right; exact Hy|exact Hb|exact Hby]). subst. contradiction. }
  pose proof (H1 x (or_introl eq_refl)) as Hfx. induction (f x) as [|b bs IHb]; [exact Hl|]. cbn. inversion Hfx; subst. constructor.
  - intros Hin. apply in_app_or in Hin. destruct Hin as [Hin|Hin]; [contradiction|]. apply (Hd b); [left; reflexivity|exact Hin].
  - apply IHb; [|assumption]. intros c Hc. apply Hd. right. exact Hc.
Qed.
Lemma nodup_map_inj {A B} (f : A -> B) l x y : NoDup (map f l) -> In x l -> In y l -> f x = f y -> x = y.
Proof.
  induction l as [|z l IH]; [contradiction|]. cbn. intros Hn. inversion Hn as [|? ? Hz Hr]; subst. intros [->|Hx] [->|Hy] E; auto.
  - exfalso. apply Hz. apply in_map_iff. exists y. auto.
  - exfalso. apply Hz. apply in_map_iff. exists x. auto.
Qed.
Lemma nodup_map_filter {A B} (f : A -> B) g l : NoDup (map f l) -> NoDup (map f (filter g l)).
Proof.
  induction l as [|z l IH]; [constructor|]. cbn. intros Hn. inversion Hn as [|? ? Hz Hr]; subst. destruct (g z); [|auto]. cbn. constructor; [|auto].
  intros Hin. apply Hz. apply in_map_iff in Hin. destruct Hin as (y & E & Hy). apply filter_In in Hy. apply in_map_iff. exists y. tauto.
Qed.
Lemma tkey_mk n p l : tkey (mktask n p l) = obj_id p (i_type (n_info n)) (i_folder (n_info n)).
Proof. reflexivity. Qed.
Lemma good_kids d P : good d P -> good (S (S d)) (flat_map kids P).
Proof.
  intros [H1 H2]. split.
  - intros c Hc. apply in_flat_map in Hc. destruct Hc as (t & Ht & Hc). unfold kids in Hc. apply in_map_iff in Hc. destruct Hc as (n & <- & Hn). cbn [t_index t_node t_parent].
    destruct (H1 t Ht) as (_ & Hw & Hd). split; [reflexivity|]. destruct (wf_names Hw) as [N1 N2]. destruct (t_node t) as [i cs] eqn:E. split; [eapply wf_child; eassumption|].
    unfold tkey. rewrite E. cbn [n_info] in *. rewrite depth_obj by assumption. congruence.
  - assert (HP : NoDup P) by (eapply NoDup_map_inv; exact H2). rewrite flat_map_concat_map, concat_map, map_map, <- flat_map_concat_map. apply nodup_flat; [exact HP| |].
    + intros t Ht. destruct (H1 t Ht) as (_ & Hw & _). unfold kids. rewrite map_map. destruct (t_node t) as [i cs] eqn:E. cbn [n_children].
      assert (Hs : distinct_siblings cs) by (inversion Hw; assumption). destruct Hs as [Hs _]. 
      assert (Hcw : forall c, In c cs -> wf c) by (intros c Hc; eapply wf_child; eassumption). clear Hw E.
      induction cs as [|c cs IH]; [constructor|]. cbn [map] in *. inversion Hs as [|? ? Hx Hr]; subst. constructor; [|apply IH; [assumption|intros c0 Hc0; apply Hcw; right; exact Hc0]].
      intros Hin. apply in_map_iff in Hin. destruct Hin as (c2 & E2 & Hc2). rewrite !tkey_mk in E2.
      destruct (wf_names (Hcw c (or_introl eq_refl))). destruct (wf_names (Hcw c2 (or_intror Hc2))).
      apply obj_id_inj in E2; try assumption. destruct E2 as (_ & Et & Ef). apply Hx. apply in_map_iff. exists c2. split; [unfold tag; congruence|exact Hc2].
    + intros x y b Hx Hy Hbx Hby. apply in_map_iff in Hbx. destruct Hbx as (cx & Ex & Hcx). apply in_map_iff in Hby. destruct Hby as (cy & Ey & Hcy).
      unfold kids in Hcx, Hcy. apply in_map_iff in Hcx. destruct Hcx as (nx & <- & Hnx). apply in_map_iff in Hcy. destruct Hcy as (ny & <- & Hny).
      rewrite <- Ey in Ex. rewrite !tkey_mk in Ex.
      destruct (H1 x Hx) as (_ & Wx & _). destruct (H1 y Hy) as (_ & Wy & _).
      assert (wf nx) as Vx by (destruct (t_node x); eapply wf_child; eassumption). assert (wf ny) as Vy by (destruct (t_node y); eapply wf_child; eassumption).
      destruct (wf_names Vx). destruct (wf_names Vy). apply obj_id_inj in Ex; try assumption. destruct Ex as (E & _). apply (nodup_map_inj _ _ x y H2 Hx Hy E).
Qed.

(** contributions of the children of one parent *)
Lemma sel_kof_kids t : sel_p (tkey t) (flat_map kof (kids t)) = flat_map nk (n_children (t_node t)).
Proof.
  unfold kids. induction (n_children (t_node t)) as [|c cs IH]; [reflexivity|]. cbn [map flat_map]. rewrite sel_p_app, IH. f_equal.
  unfold kof. cbn [t_parent t_node]. unfold sel_p. induction (nk c) as [|k l IHl]; [reflexivity|]. cbn. rewrite str_eqb_refl. cbn. rewrite IHl. reflexivity.
Qed.
Lemma sel_p_none p (cs : list (ctr D)) : (forall c, In c cs -> fst c <> p) -> sel_p p cs = [].
Proof.
  unfold sel_p. induction cs as [|c cs IH]; intros H; [reflexivity|]. cbn. destruct (str_eqb p (fst c)) eqn:E; [apply str_eqb_spec in E; exfalso; apply (H c (or_introl eq_refl)); congruence|].
  apply IH. intros x Hx. apply H. right. exact Hx.
Qed.
Lemma kof_parent t c : In c (kof t) -> fst c = t_parent t.
Proof. unfold kof. intros H. apply in_map_iff in H. destruct H as (k & <- & _). reflexivity. Qed.
Lemma kids_parent t x : In x (kids t) -> t_parent x = tkey t.
Proof. unfold kids. intros H. apply in_map_iff in H. destruct H as (n & <- & _). reflexivity. Qed.
Lemma sel_level P : NoDup (map tkey P) -> forall t, In t P -> sel_p (tkey t) (flat_map kof (flat_map kids P)) = flat_map nk (n_children (t_node t)).
Proof.
  induction P as [|x P IH]; [contradiction|]. cbn [map flat_map]. intros Hn t Hin. inversion Hn as [|? ? Hx Hr]; subst. rewrite flat_map_app, sel_p_app.
  destruct Hin as [->|Hin].
  - rewrite sel_kof_kids. rewrite (@sel_p_none _ (flat_map kof (flat_map kids P))); [apply app_nil_r|]. intros c Hc E. apply in_flat_map in Hc. destruct Hc as (y & Hy & Hc).
    apply in_flat_map in Hy. destruct Hy as (z & Hz & Hy). apply kof_parent in Hc. apply kids_parent in Hy. apply Hx. apply in_map_iff. exists z. split; [congruence|exact Hz].
  - rewrite IH by assumption. rewrite sel_p_none; [reflexivity|]. intros c Hc E. apply in_flat_map in Hc. destruct Hc as (y & Hy & Hc). apply kof_parent in Hc. apply kids_parent in Hy.
    apply Hx. apply in_map_iff. exists t. split; [congruence|exact Hin].
Qed.

(** taking the children's entries out of the index *)
Definition without_all (ks : list (list N)) (cs : list (ctr D)) : list (ctr D) := fold_left (fun c k => without k c) ks cs.
Lemma pop_level_ok P : forall idx cs, pok idx cs -> NoDup (map tkey P) ->
  (forall t, In t P -> i_class (n_info (t_node t)) = i_type (n_info (t_node t))) ->
  (forall t, In t P -> sel_p (tkey t) cs <> []) ->
  exists ts idx', pop_level P idx = Ok (ts, idx') /\ pok idx' (without_all (map tkey P) cs) /\
    Forall2 (fun p t => t_node t = t_node p /\ t_parent t = t_parent p /\ tok (t_index t) (sel_p (tkey p) cs) /\ t_index t <> []) P ts.
Proof.
  induction P as [|p P IH]; intros idx cs Hp Hn Hc Hs; cbn [pop_level map].
  - exists [], idx. split; [reflexivity|]. split; [exact Hp|constructor].
  - cbn [map] in Hn. inversion Hn as [|? ? Hx Hr]; subst. rewrite (Hc p (or_introl eq_refl)). fold (tkey p). 
    pose proof (proj2 Hp (tkey p)) as Hg. pose proof (Hs p (or_introl eq_refl)) as Hsp. destruct (dget (tkey p) idx) as [d|]; [|contradiction]. destruct Hg as [_ Ht].
    assert (Hd : d <> []) by (intros E; apply Hsp; apply Ht; exact E).
    assert (Hother : forall t, In t P -> sel_p (tkey t) (without (tkey p) cs) = sel_p (tkey t) cs).
    { intros t Ht'. rewrite sel_p_without. destruct (str_eqb (tkey t) (tkey p)) eqn:E; [|reflexivity]. apply str_eqb_spec in E. exfalso. apply Hx. apply in_map_iff. exists t. auto. }
    destruct (IH (ddel (tkey p) idx) (without (tkey p) cs)) as (ts & idx' & E & Hp' & HF).
    + apply pok_del. exact Hp.
    + exact Hr.
    + intros t Ht'. apply Hc. right. exact Ht'.
    + intros t Ht'. rewrite Hother by exact Ht'. apply Hs. right. exact Ht'.
    + rewrite E. cbn [bind]. eexists; eexists. split; [reflexivity|]. split; [exact Hp'|]. constructor; [cbn; auto|].
      clear - HF Hother. revert ts HF. induction P as [|q P IH]; intros ts HF; inversion HF as [|? y ? l2 Hq Hr]; subst; constructor.
      * destruct Hq as (A & B & C & E). rewrite Hother in C by (left; reflexivity). auto.
      * apply IH; [|exact Hr]. intros t Ht. apply Hother. right. exact Ht.
Qed.
Lemma pop_level_err P : forall idx cs, pok idx cs -> NoDup (map tkey P) ->
  (forall t, In t P -> i_class (n_info (t_node t)) = i_type (n_info (t_node t))) ->
  (exists t, In t P /\ sel_p (tkey t) cs = []) -> exists e, pop_level P idx = Err e.
Proof.
  induction P as [|p P IH]; intros idx cs Hp Hn Hc (t & Hin & Ht); [contradiction|]. cbn [pop_level]. cbn [map] in Hn. inversion Hn as [|? ? Hx Hr]; subst.
  rewrite (Hc p (or_introl eq_refl)). fold (tkey p). pose proof (proj2 Hp (tkey p)) as Hg. destruct (dget (tkey p) idx) as [d|] eqn:E; [|eexists; reflexivity].
  destruct Hin as [->|Hin]; [rewrite Ht in Hg; destruct Hg as [Hg _]; congruence|].
  destruct (IH (ddel (tkey p) idx) (without (tkey p) cs)) as [e He].
  - apply pok_del. exact Hp.
  - exact Hr.
  - intros y Hy. apply Hc. right. exact Hy.
  - exists t. split; [exact Hin|]. rewrite sel_p_without. destruct (str_eqb (tkey t) (tkey p)); [reflexivity|exact Ht].
  - rewrite He. exists e. reflexivity.
Qed.
Lemma pop_level_weak P : forall idx cs ts idx', pok idx cs -> pop_level P idx = Ok (ts, idx') ->
  Forall2 (fun p t : task => t_node t = t_node p /\ t_index t <> []) P ts.
Proof.
  induction P as [|p P IH]; intros idx cs ts idx' Hp; cbn [pop_level].
  - intros H. injection H as <- <-. constructor.
  - set (key := obj_id (t_parent p) (i_class (n_info (t_node p))) (i_folder (n_info (t_node p)))).
    pose proof (proj2 Hp key) as Hg. destruct (dget key idx) as [d|]; [|discriminate]. destruct Hg as [Hs (_ & _ & Hd)].
    destruct (pop_level P (ddel key idx)) as [[ts0 idx0]|] eqn:E; [|discriminate]. cbn [bind]. intros H. injection H as <- <-.
    constructor; [split; [reflexivity|]; cbn [t_index]; intros Hn; apply Hs; apply Hd; exact Hn|].
    eapply IH; [|exact E]. eapply pok_del. exact Hp.
Qed.
Lemma run_wrong_class p t : isparent p = true -> t_node t = t_node p -> t_index t <> [] ->
  i_class (n_info (t_node p)) <> i_type (n_info (t_node p)) -> runs t = false.
Proof.
  intros Hpar En Hne Hcl. unfold runs, EncodeLoop.run_task. rewrite En. unfold isparent in Hpar. destruct (t_node p) as [i cs]. cbn [n_info n_children] in *.
  apply andb_true_iff in Hpar. destruct Hpar as [-> _]. cbn [negb]. destruct (t_index t); [congruence|]. apply str_eqb_neq in Hcl. rewrite Hcl. reflexivity.
Qed.
Lemma without_notin k (cs : list (ctr D)) : (forall c, In c cs -> fst c <> k) -> without k cs = cs.
Proof.
  unfold without. induction cs as [|c cs IH]; intros H; [reflexivity|]. cbn. destruct (str_eqb k (fst c)) eqn:E; [apply str_eqb_spec in E; exfalso; apply (H c (or_introl eq_refl)); congruence|].
  cbn. f_equal. apply IH. intros x Hx. apply H. right. exact Hx.
Qed.
Lemma without_all_app ks a b : without_all ks (a ++ b) = without_all ks a ++ without_all ks b.
Proof. unfold without_all. revert a b. induction ks as [|k ks IH]; intros a b; [reflexivity|]. cbn. unfold without at 2. rewrite filter_app. apply IH. Qed.
Lemma without_all_notin ks : forall cs : list (ctr D), (forall c, In c cs -> ~ In (fst c) ks) -> without_all ks cs = cs.
Proof.
  unfold without_all. induction ks as [|k ks IH]; intros cs H; [reflexivity|]. cbn [fold_left]. rewrite without_notin by (intros c Hc E; apply (H c Hc); left; auto).
  apply IH. intros c Hc Hin. apply (H c Hc). right. exact Hin.
Qed.
Lemma without_all_in ks : forall cs : list (ctr D), (forall c, In c cs -> In (fst c) ks) -> without_all ks cs = [].
Proof.
  induction ks as [|k ks IH]; intros cs H.
  - destruct cs as [|c cs]; [reflexivity|]. destruct (H c (or_introl eq_refl)).
  - unfold without_all. cbn [fold_left]. apply IH. intros c Hc. unfold without in Hc. apply filter_In in Hc. destruct Hc as [Hc Hn].
    destruct (H c Hc) as [E|Hin]; [|exact Hin]. rewrite E, str_eqb_refl in Hn. discriminate.
Qed.

(** second-pass tasks *)
Definition fown (n : node) : list Ft :=
  match finish (n_info n) (group (flat_map nk (n_children n))) with Ok (_, fs) => fs | Err _ => [] end.
Lemma run_second p t : isparent p = true -> wf (t_node p) -> i_class (n_info (t_node p)) = i_type (n_info (t_node p)) -> forallb nok (n_children (t_node p)) = true ->
  t_node t = t_node p -> t_parent t = t_parent p -> tok (t_index t) (flat_map nk (n_children (t_node p))) -> t_index t <> [] -> flat_map nk (n_children (t_node p)) <> [] ->
  runs t = okb p /\ (okb p = true -> ectr t = kof p /\ efiles t = fown (t_node p) /\ fof p = flat_map nf (n_children (t_node p)) ++ fown (t_node p)) /\ eobjs t = [] /\ ekids t = [].
Proof.
  intros Hpar Hw Hcl Hk En Ep Ht Hne Hks. unfold runs, okb, ectr, kof, efiles, fof, eobjs, ekids, fown, nok, nf, nk, EncodeLoop.run_task. rewrite En, Ep.
  unfold isparent in Hpar. destruct (t_node p) as [i cs] eqn:E. cbn [n_info n_children] in *. apply andb_true_iff in Hpar. destruct Hpar as [Hm Hc]. rewrite !build_eq, Hm. cbn [negb].
  destruct (t_index t) as [|x idx] eqn:Ei; [congruence|]. rewrite <- Ei in *. clear Ei Hne. 
  destruct cs as [|c cs]; [discriminate|]. set (ch := c :: cs) in *. 
  cbn [n_info] in Hcl. rewrite Hcl, str_eqb_refl.
  rewrite (build_all_ok _ Hk). cbn [bind]. 
  destruct (flat_map nk ch) as [|k0 ks] eqn:Eks; [congruence|]. rewrite <- Eks in *.
  rewrite (@fill_group i (flat_map nk ch) (t_index t)) by (first [exact Ht|exact Hks|apply kids_distinct; inversion Hw; assumption]).
  change (fun n : node => match build n with Ok (k, _) => k | Err _ => [] end) with nk. change (fun n : node => match build n with Ok (_, f) => f | Err _ => [] end) with nf.
  unfold finished. destruct (finish i (group (flat_map nk ch))) as [[d fs]|e]; cbn [bind]; [|split; [reflexivity|split; [discriminate|split; reflexivity]]].
  split; [reflexivity|]. split; [|split; reflexivity]. intros _. destruct d; cbn; auto.
Qed.

(** ** The loop *)
Variable sched : nat -> list task -> list task.
Hypothesis Hsched : forall n l, Permutation (sched n l) l.

Lemma forallb_perm {A} (f : A -> bool) l l' : Permutation l l' -> forallb f l = forallb f l'.
Proof.
  induction 1; cbn; [reflexivity|congruence| |congruence]. destruct (f x), (f y); reflexivity.
Qed.
Lemma perm_split {A} (g : A -> bool) l : Permutation l (filter (fun x => negb (g x)) l ++ filter g l).
Proof.
  induction l as [|x l IH]; [constructor|]. cbn. destruct (g x); cbn; [|constructor; exact IH]. etransitivity; [constructor; exact IH|apply Permutation_middle].
Qed.
Lemma flat_perm {A B} (f : A -> list B) l l' : Permutation l l' -> Permutation (flat_map f l) (flat_map f l').
Proof.
  induction 1; cbn; [constructor|apply Permutation_app_head; assumption| |etransitivity; eassumption]. rewrite !app_assoc. apply Permutation_app_tail. apply Permutation_app_comm.
Qed.
Lemma loop_step fuel n files idx lv T : T <> [] -> loop (S fuel) n sched (mkstate files idx lv T) =
  (r <- collect (sched n T) (mkround [] [] [] []) ;;
   s' <- settle (mkstate (files ++ r_files r) (merge_index idx (r_index r)) (match r_objs r with [] => lv | os => os :: lv end) (r_children r)) ;;
   loop fuel (S n) sched s').
Proof. intros H. destruct T; [congruence|]. reflexivity. Qed.
Lemma loop_zero n files idx lv T : T <> [] -> loop O n sched (mkstate files idx lv T) = Err Timeout.
Proof. intros H. destruct T; [congruence|]. reflexivity. Qed.

Lemma loop_mono fuel : forall k n s x, loop fuel n sched s = Ok x -> loop (fuel + k) n sched s = Ok x.
Proof.
  induction fuel as [|fuel IH]; intros k n s x H.
  - cbn [EncodeLoop.loop] in H. destruct k; cbn [Nat.add EncodeLoop.loop]; destruct (s_tasks s), (s_levels s); try discriminate H; exact H.
  - cbn [Nat.add]. cbn [EncodeLoop.loop] in *. destruct (s_tasks s) as [|t ts]; [destruct (s_levels s) as [|l ls]; [exact H|]|];
    (destruct (collect _ _) as [r|]; [|discriminate H]; cbn [bind] in *; destruct (settle _) as [s'|]; [|discriminate H]; cbn [bind] in *; apply IH; exact H).
Qed.

Definition plain (t : task) : bool := negb (isparent t).
Lemma first_round T : (forall t, In t T -> t_index t = []) ->
  forallb runs T = forallb okb (filter plain T) /\
  flat_map eobjs T = filter isparent T /\ flat_map ekids T = flat_map kids (filter isparent T) /\
  (forallb okb (filter plain T) = true -> flat_map efiles T = flat_map fof (filter plain T) /\ flat_map ectr T = flat_map kof (filter plain T)).
Proof.
  induction T as [|t T IH]; intros Hi; [auto|]. destruct IH as (A & B & C & E); [intros x Hx; apply Hi; right; exact Hx|].
  cbn [forallb flat_map filter]. assert (Hpl : plain t = negb (isparent t)) by reflexivity. rewrite Hpl.
  destruct (@run_first t (Hi t (or_introl eq_refl))) as [[Hp Hr]|(Hp & Hr & Hok & Ho & Hk)]; rewrite Hp; cbn [negb].
  - assert (runs t = true) as -> by (unfold runs; rewrite Hr; reflexivity). unfold eobjs at 1, ekids at 1, efiles at 1, ectr at 1. rewrite Hr. cbn [andb app flat_map].
    split; [exact A|]. split; [congruence|]. split; [congruence|]. exact E.
  - rewrite Hr, Ho, Hk, A. cbn [forallb app flat_map]. split; [reflexivity|]. split; [exact B|]. split; [exact C|]. intros H. apply andb_true_iff in H. destruct H as [H1 H2].
    destruct (Hok H1) as [-> ->]. destruct (E H2) as [-> ->]. auto.
Qed.
Lemma good_perm d T T' : Permutation T T' -> good d T -> good d T'.
Proof.
  intros P [H1 H2]. split; [intros t Ht; apply H1; eapply Permutation_in; [symmetry; exact P|exact Ht]|]. eapply Permutation_NoDup; [apply Permutation_map; exact P|exact H2].
Qed.
Lemma good_filter d T g : good d T -> good d (filter g T).
Proof. intros [H1 H2]. split; [intros t Ht; apply filter_In in Ht; apply H1; tauto|apply nodup_map_filter; exact H2]. Qed.
Lemma okb_parent p : isparent p = true -> okb p = true -> forallb nok (n_children (t_node p)) = true /\ flat_map nk (n_children (t_node p)) <> [] /\ i_class (n_info (t_node p)) = i_type (n_info (t_node p)).
Proof.
  unfold isparent, okb, nok at 1. destruct (t_node p) as [i cs]. cbn [n_info n_children]. rewrite build_eq. intros H. apply andb_true_iff in H. destruct H as [-> Hc]. cbn [negb].
  destruct cs as [|c cs]; [discriminate|]. destruct (forallb nok (c :: cs)) eqn:E.
  - rewrite (build_all_ok _ E). cbn [bind]. destruct (flat_map nk (c :: cs)); [discriminate|]. destruct (str_eqb (i_class i) (i_type i)) eqn:Ec; [|discriminate]. apply str_eqb_spec in Ec. intros _. split; [reflexivity|]. split; [discriminate|exact Ec].
  - destruct (build_all_err _ E) as [e ->]. discriminate.
Qed.
Lemma kids_okb p : forallb okb (kids p) = forallb nok (n_children (t_node p)).
Proof. unfold kids, okb. induction (n_children (t_node p)) as [|c cs IH]; [reflexivity|]. cbn. rewrite <- IH. reflexivity. Qed.
Lemma kids_fof p : flat_map fof (kids p) = flat_map nf (n_children (t_node p)).
Proof. unfold kids, fof. induction (n_children (t_node p)) as [|c cs IH]; [reflexivity|]. cbn. rewrite <- IH. reflexivity. Qed.
Lemma forallb_flat {A B} (f : B -> bool) (g : A -> list B) l : forallb f (flat_map g l) = forallb (fun x => forallb f (g x)) l.
Proof. induction l as [|x l IH]; [reflexivity|]. cbn. rewrite forallb_app, IH. reflexivity. Qed.

Lemma second_round P ts : Forall2 (fun p t => t_node t = t_node p /\ t_parent t = t_parent p /\ tok (t_index t) (flat_map nk (n_children (t_node p))) /\ t_index t <> []) P ts ->
  (forall p, In p P -> isparent p = true /\ wf (t_node p) /\ i_class (n_info (t_node p)) = i_type (n_info (t_node p)) /\ forallb nok (n_children (t_node p)) = true /\ flat_map nk (n_children (t_node p)) <> []) ->
  forallb runs ts = forallb okb P /\ flat_map eobjs ts = [] /\ flat_map ekids ts = [] /\
  (forallb okb P = true -> flat_map ectr ts = flat_map kof P /\ flat_map efiles ts = flat_map (fun p => fown (t_node p)) P /\
     Permutation (flat_map fof P) (flat_map fof (flat_map kids P) ++ flat_map (fun p => fown (t_node p)) P)).
Proof.
  induction 1 as [|p t P ts (En & Ep & Ht & Hne) HF IH]; intros HP; [repeat split; intros; reflexivity|].
  destruct IH as (A & B & C & E); [intros x Hx; apply HP; right; exact Hx|]. destruct (HP p (or_introl eq_refl)) as (H1 & H2 & H2' & H3 & H4).
  destruct (@run_second p t H1 H2 H2' H3 En Ep Ht Hne H4) as (R1 & R2 & R3 & R4). cbn [forallb flat_map]. rewrite R1, A, R3, R4, B, C. repeat split; try reflexivity.
  - apply andb_true_iff in H. destruct H as [Ha Hb]. destruct (R2 Ha) as (-> & _). destruct (E Hb) as (-> & _). reflexivity.
  - apply andb_true_iff in H. destruct H as [Ha Hb]. destruct (R2 Ha) as (_ & -> & _). destruct (E Hb) as (_ & -> & _). reflexivity.
  - apply andb_true_iff in H. destruct H as [Ha Hb]. destruct (R2 Ha) as (_ & _ & ->). destruct (E Hb) as (_ & _ & Hperm). rewrite flat_map_app, kids_fof.
    rewrite <- !app_assoc. apply Permutation_app_head. rewrite Hperm. rewrite !app_assoc. apply Permutation_app_tail. apply Permutation_app_comm.
Qed.

Lemma Forall2_in_impl {A B} (R R' : A -> B -> Prop) l m : Forall2 R l m -> (forall a b, In a l -> R a b -> R' a b) -> Forall2 R' l m.
Proof. induction 1; intros H'; constructor; [apply H'; [left; reflexivity|assumption]|]. apply IHForall2. intros x0 y0 Hx. apply H'. right. exact Hx. Qed.
Lemma Forall2_perm {A B} (R : A -> B -> Prop) l m m' : Permutation m m' -> Forall2 R l m -> exists l', Permutation l l' /\ Forall2 R l' m'.
Proof.
  intros P. revert l. induction P; intros xs HF.
  - inversion HF; subst. exists []. split; constructor.
  - inversion HF as [|a ? xs0 ? Ha Hr]; subst. destruct (IHP _ Hr) as (vs & P' & F'). exists (a :: vs). split; constructor; assumption.
  - inversion HF as [|a ? xs0 ? Ha Hr]; subst. inversion Hr as [|b ? xs1 ? Hb Hr']; subst. exists (b :: a :: xs1). split; [constructor|constructor; [assumption|constructor; assumption]].
  - destruct (IHP1 _ HF) as (zs & P1' & F1). destruct (IHP2 _ F1) as (ws & P2' & F2). exists ws. split; [etransitivity; eassumption|exact F2].
Qed.

Lemma level h : forall T d, T <> [] -> good d T -> (forall t, In t T -> (height (t_node t) <= h)%nat) ->
  forall n files idx cs lv, pok idx cs -> (forall c, In c cs -> (depth (fst c) <= d)%nat) ->
  if forallb okb T then
    exists r files' idx', (r <= 2 * h)%nat /\ Permutation files' (files ++ flat_map fof T) /\ pok idx' (cs ++ flat_map kof T) /\
      forall fuel, loop (r + fuel) n sched (mkstate files idx lv T) = (s' <- settle (mkstate files' idx' lv []) ;; loop fuel (r + n) sched s')
  else forall fuel, exists e, loop fuel n sched (mkstate files idx lv T) = Err e.
Proof.
  induction h as [|h IH]; intros T d Hne Hg Hh n files idx cs lv Hp Hdep.
  - exfalso. destruct T as [|t T]; [congruence|]. specialize (Hh t (or_introl eq_refl)). destruct (t_node t). cbn in Hh. lia.
  - set (T' := sched n T). assert (PT : Permutation T' T) by apply Hsched.
    assert (HgT' : good d T') by (eapply good_perm; [symmetry; exact PT|exact Hg]).
    assert (Hi : forall t, In t T' -> t_index t = []) by (intros t Ht; apply (proj1 HgT'); exact Ht).
    destruct (first_round T' Hi) as (R1 & R2 & R3 & R4).
    rewrite <- (forallb_perm okb PT).
    set (L := filter plain T') in *. set (P := filter isparent T') in *.
    assert (PL : Permutation T' (L ++ P)) by apply perm_split.
    assert (Eok : forallb okb T' = forallb okb L && forallb okb P) by (rewrite (forallb_perm okb PL), forallb_app; reflexivity).
    destruct (forallb okb L) eqn:EL.
    2: { rewrite Eok. cbn [andb]. intros [|fuel]; [eexists; apply loop_zero; exact Hne|]. rewrite loop_step by exact Hne. fold T'.
         destruct (@collect_err T' (mkround [] [] [] []) R1) as [e He]. rewrite He. exists e. reflexivity. }
    destruct (R4 eq_refl) as [R5 R6]. clear R4.
    destruct (@collect_ok T' (mkround [] [] [] []) [] R1 (@pok_nil D)) as (r & Er & F1 & F2 & F3 & F4). cbn [r_files r_objs r_children app] in F1, F2, F3, F4.
    rewrite R5 in F1. rewrite R6 in F2. rewrite R2 in F3. rewrite R3 in F4.
    assert (Hp1 : pok (merge_index idx (r_index r)) (cs ++ flat_map kof L)) by (apply pok_merge; assumption).
    destruct P as [|p0 P0] eqn:EP.
    + rewrite Eok. cbn [andb forallb]. exists 1%nat, (files ++ r_files r), (merge_index idx (r_index r)). split; [lia|].
      assert (PTL : Permutation L T) by (rewrite <- PT, PL, app_nil_r; reflexivity).
      split; [rewrite F1; apply Permutation_app_head, flat_perm; exact PTL|]. split; [eapply pok_perm; [|exact Hp1]; apply Permutation_app_head, flat_perm; exact PTL|].
      intros fuel. cbn [Nat.add]. rewrite loop_step by exact Hne. fold T'. rewrite Er. cbn [bind]. rewrite F3, F4. reflexivity.
    + rewrite <- EP in *. assert (HPne : P <> []) by (rewrite EP; discriminate). clear p0 P0 EP.
      assert (HgP : good d P) by (apply good_filter; exact HgT').
      assert (HPpar : forall p, In p P -> isparent p = true) by (intros p Hpp; apply filter_In in Hpp; tauto).
      assert (HPT : forall p, In p P -> In p T) by (intros p Hpp; apply filter_In in Hpp; eapply Permutation_in; [exact PT|tauto]).
      set (C := flat_map kids P) in *.
      assert (HCne : C <> []).
      { destruct P as [|p P']; [congruence|]. specialize (HPpar p (or_introl eq_refl)). unfold C. cbn [flat_map]. unfold isparent in HPpar. apply andb_true_iff in HPpar. destruct HPpar as [_ Hc].
        unfold kids. destruct (n_children (t_node p)); [discriminate|discriminate]. }
      assert (HgC : good (S (S d)) C) by (apply good_kids; exact HgP).
      assert (HhC : forall t, In t C -> (height (t_node t) <= h)%nat).
      { intros t Ht. unfold C in Ht. apply in_flat_map in Ht. destruct Ht as (p & Hpp & Ht). unfold kids in Ht. apply in_map_iff in Ht. destruct Ht as (c & <- & Hc). cbn [t_node].
        specialize (Hh p (HPT p Hpp)). destruct (t_node p) as [i chs] eqn:Ep. cbn [n_children] in Hc. pose proof (height_child i chs c Hc). lia. }
      assert (Hdep1 : forall c, In c (cs ++ flat_map kof L) -> (depth (fst c) <= d)%nat).
      { intros c Hc. apply in_app_or in Hc. destruct Hc as [Hc|Hc]; [apply Hdep; exact Hc|]. apply in_flat_map in Hc. destruct Hc as (t & Ht & Hc). apply kof_parent in Hc.
        unfold L in Ht. apply filter_In in Ht. destruct Ht as [Ht _]. destruct (proj1 HgT' t Ht) as (_ & _ & Hd). rewrite Hc. lia. }
      assert (Hstep : forall fuel, loop (S fuel) n sched (mkstate files idx lv T) = loop fuel (S n) sched (mkstate (files ++ r_files r) (merge_index idx (r_index r)) (P :: lv) C)).
      { intros fuel. rewrite loop_step by exact Hne. fold T'. rewrite Er. cbn [bind]. rewrite F3, F4. destruct P as [|p P']; [congruence|]. unfold settle. cbn [s_tasks s_levels].
        destruct C; [congruence|]. reflexivity. }
      pose proof (IH C (S (S d)) HCne HgC HhC (S n) (files ++ r_files r) (merge_index idx (r_index r)) (cs ++ flat_map kof L) (P :: lv) Hp1) as HC.
      specialize (HC ltac:(intros c Hc; specialize (Hdep1 c Hc); lia)).
      assert (EC : forallb okb C = forallb (fun p => forallb nok (n_children (t_node p))) P).
      { unfold C. rewrite forallb_flat. clear. induction P as [|p P IHp]; [reflexivity|]. cbn. rewrite kids_okb, IHp. reflexivity. }
      destruct (forallb okb C) eqn:ECok.
      2: { assert (forallb okb P = false) as EPf.
           { destruct (forallb okb P) eqn:E; [|reflexivity]. rewrite EC. symmetry. apply forallb_forall. intros p Hpp. rewrite forallb_forall in E.
             apply (@okb_parent p (HPpar p Hpp) (E p Hpp)). }
           rewrite Eok, EPf. cbn [andb]. intros [|fuel]; [eexists; apply loop_zero; exact Hne|]. rewrite Hstep. apply HC. }
      destruct HC as (r1 & files1 & idx1 & Hr1 & Pf1 & Pk1 & Hl1).
      symmetry in EC. rewrite forallb_forall in EC.
      set (K := (cs ++ flat_map kof L) ++ flat_map kof C) in *.
      assert (Hkey : forall p, In p P -> depth (tkey p) = S (S d)).
      { intros p Hpp. destruct (proj1 HgP p Hpp) as (_ & Hw & Hd). destruct (wf_names Hw). unfold tkey. rewrite depth_obj by assumption. congruence. }
      assert (HselP : forall p, In p P -> sel_p (tkey p) K = flat_map nk (n_children (t_node p))).
      { intros p Hpp. unfold K. rewrite sel_p_app. rewrite (@sel_p_none _ (cs ++ flat_map kof L)).
        - apply sel_level; [exact (proj2 HgP)|exact Hpp].
        - intros c Hc E. specialize (Hdep1 c Hc). rewrite E, (Hkey p Hpp) in Hdep1. lia. }
      assert (Hsettle : forall (fl : list Ft) ix, settle (mkstate fl ix (P :: lv) []) = (' (ts, ix') <- pop_level P ix ;; Ok (mkstate fl ix' lv ts))) by reflexivity.
      assert (Hloop : forall fuel, loop (S (r1 + fuel)) n sched (mkstate files idx lv T) = (s' <- (' (ts, ix') <- pop_level P idx1 ;; Ok (mkstate files1 ix' lv ts)) ;; loop fuel (r1 + S n) sched s')).
      { intros fuel. rewrite Hstep, Hl1, Hsettle. reflexivity. }
      assert (Hmono_err : (forall fuel, exists e, loop (S (r1 + fuel)) n sched (mkstate files idx lv T) = Err e) -> forall fuel, exists e, loop fuel n sched (mkstate files idx lv T) = Err e).
      { intros He fuel. destruct (loop fuel n sched (mkstate files idx lv T)) as [x|e] eqn:Ex; [|exists e; reflexivity]. exfalso.
        apply loop_mono with (k := S r1) in Ex. destruct (He fuel) as [e He']. replace (fuel + S r1)%nat with (S (r1 + fuel)) in Ex by lia. congruence. }
      destruct (forallb (fun p => str_eqb (i_class (n_info (t_node p))) (i_type (n_info (t_node p)))) P) eqn:Ecc.
      2: { assert (Hex : exists p, In p P /\ i_class (n_info (t_node p)) <> i_type (n_info (t_node p))).
           { clear - Ecc. induction P as [|p P IHp]; [discriminate|]. cbn in Ecc. destruct (str_eqb (i_class (n_info (t_node p))) (i_type (n_info (t_node p)))) eqn:E.
             - destruct (IHp Ecc) as (q & Hq & Eq). exists q. split; [right; exact Hq|exact Eq].
             - exists p. split; [left; reflexivity|apply str_eqb_neq; exact E]. }
           destruct Hex as (p & Hpp & Hpc).
           assert (forallb okb P = false) as EPf.
           { destruct (forallb okb P) eqn:E; [|reflexivity]. rewrite forallb_forall in E. destruct (@okb_parent p (HPpar p Hpp) (E p Hpp)) as (_ & _ & Ec). contradiction. }
           rewrite Eok, EPf. cbn [andb]. apply Hmono_err. intros fuel. rewrite Hloop.
           destruct (pop_level P idx1) as [[ts ix']|e] eqn:Ept; [|exists e; reflexivity]. cbn [bind].
           pose proof (@pop_level_weak P idx1 K ts ix' Pk1 Ept) as HF.
           assert (Ht : exists t, In t ts /\ runs t = false).
           { clear - HF Hpp Hpc HPpar. induction HF as [|q t P ts [En Hne] HF IHf]; [contradiction|]. destruct Hpp as [->|Hpp].
             - exists t. split; [left; reflexivity|]. apply (@run_wrong_class p t); [apply HPpar; left; reflexivity|exact En|exact Hne|exact Hpc].
             - destruct IHf as (t' & Ht & Er); [intros x Hx; apply HPpar; right; exact Hx|exact Hpp|]. exists t'. split; [right; exact Ht|exact Er]. }
           destruct Ht as (t & Ht & Ert). assert (Htsne : ts <> []) by (intros ->; contradiction).
           destruct fuel as [|fuel]; [eexists; apply loop_zero; exact Htsne|]. rewrite loop_step by exact Htsne.
           destruct (@collect_err (sched (r1 + S n) ts) (mkround [] [] [] [])) as [e He].
           { rewrite (forallb_perm runs (Hsched (r1 + S n) ts)). destruct (forallb runs ts) eqn:E; [|reflexivity]. rewrite forallb_forall in E. rewrite (E t Ht) in Ert. discriminate. }
           rewrite He. exists e. reflexivity. }
      assert (Hcls : forall p, In p P -> i_class (n_info (t_node p)) = i_type (n_info (t_node p))).
      { intros p Hpp. rewrite forallb_forall in Ecc. apply str_eqb_spec. exact (Ecc p Hpp). }
      destruct (forallb (fun p => match flat_map nk (n_children (t_node p)) with [] => false | _ => true end) P) eqn:Ekk.
      2: { assert (Hex : exists p, In p P /\ flat_map nk (n_children (t_node p)) = []).
           { clear - Ekk. induction P as [|p P IHp]; [discriminate|]. cbn in Ekk. destruct (flat_map nk (n_children (t_node p))) eqn:E.
             - exists p. split; [left; reflexivity|exact E].
             - destruct (IHp Ekk) as (q & Hq & Eq). exists q. split; [right; exact Hq|exact Eq]. }
           destruct Hex as (p & Hpp & Hpk).
           assert (forallb okb P = false) as EPf.
           { destruct (forallb okb P) eqn:E; [|reflexivity]. rewrite forallb_forall in E. destruct (@okb_parent p (HPpar p Hpp) (E p Hpp)) as (_ & ? & _). contradiction. }
           rewrite Eok, EPf. cbn [andb]. apply Hmono_err. intros fuel. rewrite Hloop.
           destruct (@pop_level_err P idx1 K Pk1 (proj2 HgP) Hcls) as [e He]; [exists p; split; [exact Hpp|rewrite HselP by exact Hpp; exact Hpk]|]. rewrite He. exists e. reflexivity. }
      rewrite forallb_forall in Ekk.
      assert (Hnk : forall p, In p P -> flat_map nk (n_children (t_node p)) <> []) by (intros p Hpp; specialize (Ekk p Hpp); destruct (flat_map nk (n_children (t_node p))); discriminate).
      destruct (@pop_level_ok P idx1 K Pk1 (proj2 HgP) Hcls) as (ts & idx2 & Ept & Hp2 & HF); [intros p Hpp; rewrite HselP by exact Hpp; apply Hnk; exact Hpp|].
      assert (Hk2 : without_all (map tkey P) K = cs ++ flat_map kof L).
      { unfold K. rewrite without_all_app. rewrite without_all_notin, without_all_in; [apply app_nil_r| |].
        - intros c Hc. apply in_flat_map in Hc. destruct Hc as (t & Ht & Hc). apply kof_parent in Hc. unfold C in Ht. apply in_flat_map in Ht. destruct Ht as (p & Hpp & Ht). apply kids_parent in Ht.
          rewrite Hc, Ht. apply in_map. exact Hpp.
        - intros c Hc Hin. apply in_map_iff in Hin. destruct Hin as (p & E & Hpp). specialize (Hdep1 c Hc). rewrite <- E, (Hkey p Hpp) in Hdep1. lia. }
      rewrite Hk2 in Hp2.
      assert (HF2 : Forall2 (fun p t => t_node t = t_node p /\ t_parent t = t_parent p /\ tok (t_index t) (flat_map nk (n_children (t_node p))) /\ t_index t <> []) P ts).
      { apply (Forall2_in_impl _ HF). intros p t Hpp (A & B & Cc & Dd). rewrite HselP in Cc by exact Hpp. auto. }
      destruct (@Forall2_perm _ _ _ _ _ (sched (r1 + S n) ts) (Permutation_sym (Hsched (r1 + S n) ts)) HF2) as (P' & PP & HF3).
      assert (HP' : forall p, In p P' -> isparent p = true /\ wf (t_node p) /\ i_class (n_info (t_node p)) = i_type (n_info (t_node p)) /\ forallb nok (n_children (t_node p)) = true /\ flat_map nk (n_children (t_node p)) <> []).
      { intros p Hpp. assert (Hin : In p P) by (eapply Permutation_in; [symmetry; exact PP|exact Hpp]). destruct (proj1 HgP p Hin) as (_ & Hw & _). split; [auto|]. split; [exact Hw|]. split; [auto|]. split; auto. }
      destruct (second_round HF3 HP') as (S1 & S2 & S3 & S4).
      rewrite <- (forallb_perm okb PP) in S1, S4.
      assert (Htsne : ts <> []) by (intros ->; inversion HF2; subst; congruence).
      rewrite Eok. cbn [andb]. destruct (forallb okb P) eqn:EPok.
      2: { apply Hmono_err. intros fuel. rewrite Hloop, Ept. cbn [bind]. destruct fuel as [|fuel]; [eexists; apply loop_zero; exact Htsne|]. rewrite loop_step by exact Htsne.
           destruct (@collect_err (sched (r1 + S n) ts) (mkround [] [] [] []) S1) as [e He]. rewrite He. exists e. reflexivity. }
      destruct (S4 eq_refl) as (S5 & S6 & S7).
      destruct (@collect_ok (sched (r1 + S n) ts) (mkround [] [] [] []) [] S1 (@pok_nil D)) as (r2 & Er2 & G1 & G2 & G3 & G4). cbn [r_files r_objs r_children app] in G1, G2, G3, G4.
      rewrite S5 in G2. rewrite S6 in G1. rewrite S2 in G3. rewrite S3 in G4.
      assert (PTLP : Permutation T (L ++ P)) by (rewrite <- PT; exact PL).
      exists (S (r1 + 1)), (files1 ++ r_files r2), (merge_index idx2 (r_index r2)). split; [lia|]. split; [|split].
      * rewrite Pf1, G1, F1. rewrite (flat_perm fof PTLP), flat_map_app, <- !app_assoc. apply Permutation_app_head, Permutation_app_head.
        rewrite (flat_perm fof PP), S7. apply Permutation_app; [unfold C; apply flat_perm, flat_perm; exact PP|reflexivity].
      * eapply pok_perm; [|apply pok_merge; [exact Hp2|exact G2]]. rewrite <- app_assoc. apply Permutation_app_head. rewrite (flat_perm kof PTLP), flat_map_app. apply Permutation_app_head, flat_perm. symmetry. exact PP.
      * intros fuel. change (S (r1 + 1) + fuel)%nat with (S (r1 + 1 + fuel)). replace (r1 + 1 + fuel)%nat with (r1 + S fuel)%nat by lia. rewrite Hloop, Ept. cbn [bind]. rewrite loop_step by exact Htsne.
        rewrite Er2. cbn [bind]. rewrite G3, G4. replace (S (r1 + 1) + n)%nat with (S (r1 + S n)) by lia. reflexivity.
Qed.
End M.
