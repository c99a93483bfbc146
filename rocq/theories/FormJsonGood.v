(** The strings of the file .elem.json come from the form: they can be written and read. *)
From Coq Require Import String Permutation.
From Verif Require Import PyBase PyInt PyText Utf Brace Spec_Brace BraceMore Header CalcOffset JsonText JsonTextProofs JsonObj Container Pipeline ObjCode Payload MetaObj MetaObjBase MetaObjGood FormCode FormElem FormElemBase FormJson.
Set Implicit Arguments.
Open Scope list_scope.
Open Scope N_scope.

Notation sc := (Forall scalar).
Notation lsc := (Forall scal).
Definition oall (A : Type) (P : A -> Prop) (o : option A) : Prop := match o with Some x => P x | None => True end.
Definition par_sc (p : fpar) : Prop := sc (pa_name p) /\ scal (pa_raw p).
Definition col_sc (c : fcol) : Prop := sc (co_name c) /\ scal (co_id c) /\ scal (co_raw c).
Definition prop_sc (p : fprop) : Prop := sc (pr_name p) /\ scal (pr_id p) /\ scal (pr_raw p) /\ oall (Forall col_sc) (pr_cols p).
Definition cmd_sc (c : fcmd) : Prop := sc (cm_name c) /\ scal (cm_id c) /\ scal (cm_raw c).
Inductive item_sc : fitem -> Prop := item_sc_intro n k c : sc n -> (forall l, c = Some l -> Forall item_sc l) -> item_sc (FItem n k c).
Definition edata_sc (e : edata) : Prop := lsc (e_raw e) /\ oall sc (e_prop e) /\ oall sc (e_cmd e).
Definition data_sc (d : list (list N * edata)) : Prop := Forall (fun e => sc (fst e) /\ edata_sc (snd e)) d.
Definition fe_sc (fe : felems) : Prop :=
  oall (Forall par_sc) (fe_params fe) /\ oall (Forall prop_sc) (fe_props fe) /\ oall (Forall cmd_sc) (fe_commands fe) /\ oall (Forall item_sc) (fe_tree fe) /\ data_sc (fe_data fe).

(** ** The file *)
Lemma jgood_obj_of d : Forall (fun e : list N * jval => sc (fst e) /\ jgood (snd e)) d -> jgood (Jobj d).
Proof.
  intros H. split.
  - cbn [numsok]. apply forallb_forall. intros e He. rewrite Forall_forall in H. apply (H e He).
  - cbn [jstrs]. induction H as [|e d [H1 [_ H2]] H IH]; [constructor|]. cbn [flat_map]. constructor; [exact H1|]. apply Forall_app. split; [exact H2|exact IH].
Qed.
Lemma jgood_list_of l : Forall jgood l -> jgood (Jlist l).
Proof.
  intros H. split.
  - cbn [numsok]. apply forallb_forall. intros e He. rewrite Forall_forall in H. apply (H e He).
  - cbn [jstrs]. induction H as [|e d [_ H2] H IH]; [constructor|]. cbn [flat_map]. apply Forall_app. split; [exact H2|exact IH].
Qed.
Lemma jgood_str s : sc s -> jgood (Jstr s).
Proof. intros H. change (Jstr s) with (jv (VStr s)). apply jgood_jv. exact (proj1 (scal_str s) H). Qed.
Lemma jgood_opt (A : Type) (f : A -> jval) o : oall (Forall (fun x => jgood (f x))) o -> jgood (jopt f o).
Proof. destruct o as [l|]; intros H; [|split; [reflexivity|constructor]]. apply jgood_list_of. cbn [oall] in H. induction H; constructor; auto. Qed.
Lemma oall_imp (A : Type) (P Q : A -> Prop) o : (forall x, P x -> Q x) -> oall P o -> oall Q o.
Proof. destruct o; cbn; auto. Qed.
Lemma item_json_good x : item_sc x -> jgood (item_json x).
Proof.
  revert x. fix IH 2. intros x H. destruct H as [n k c Hn Hc]. cbn [item_json].
  assert (K : jgood (Jnull)) by (split; [reflexivity|constructor]).
  apply jgood_obj_of. apply Forall_app. split.
  - constructor; [split; [scalars|apply jgood_str, Hn]|constructor; [split; [scalars|apply jgood_str; destruct k; scalars]|constructor]].
  - destruct c as [l|].
    + assert (G : jgood (Jlist (map item_json l))).
      { apply jgood_list_of. specialize (Hc l eq_refl). clear Hn. induction Hc as [|y l Hy Hl IHl]; cbn [map]; constructor; [apply IH, Hy|exact IHl]. }
      assert (Q : Forall (fun e : list N * jval => sc (fst e) /\ jgood (snd e)) [(k_child, Jlist (map item_json l))]) by (constructor; [split; [scalars|exact G]|constructor]).
      destruct (kids_at k); exact Q.
    + destruct (kids_at k); constructor; [split; [scalars|exact K]|constructor].
Qed.
Lemma str_key_good k o : sc k -> oall sc o -> Forall (fun e : list N * jval => sc (fst e) /\ jgood (snd e)) (str_key k o).
Proof. intros Hk Ho. destruct o; [|constructor]. constructor; [split; [exact Hk|apply jgood_str, Ho]|constructor]. Qed.
Ltac pairs := repeat (constructor; [split; [scalars|]|]).
Theorem felems_json_good fe : fe_sc fe -> jgood (felems_json fe).
Proof.
  intros (Ha & Hb & Hc & Hd & He). unfold felems_json. apply jgood_obj_of. pairs; cbn [snd]; [| | | | |constructor].
  - apply jgood_opt. eapply oall_imp; [|exact Ha]. intros l Hl. eapply Forall_impl; [|exact Hl]. intros p (H1 & H2). apply jgood_obj_of. pairs; [apply jgood_str, H1|apply jgood_jv, H2|constructor].
  - apply jgood_opt. eapply oall_imp; [|exact Hb]. intros l Hl. eapply Forall_impl; [|exact Hl]. intros p (H1 & H2 & H3 & H4). apply jgood_obj_of. apply Forall_app. split.
    + pairs; [apply jgood_str, H1|apply jgood_jv, H2|apply jgood_jv, H3|constructor].
    + destruct (pr_cols p) as [cs|]; [|constructor]. constructor; [split; [scalars|]|constructor]. apply jgood_list_of. cbn [oall] in H4. clear -H4. induction H4 as [|c cs (G1 & G2 & G3) H IH]; cbn [map]; constructor; [|exact IH].
      apply jgood_obj_of. pairs; [apply jgood_str, G1|apply jgood_jv, G2|apply jgood_jv, G3|constructor].
  - apply jgood_opt. eapply oall_imp; [|exact Hc]. intros l Hl. eapply Forall_impl; [|exact Hl]. intros p (H1 & H2 & H3). apply jgood_obj_of. pairs; [apply jgood_str, H1|apply jgood_jv, H2|apply jgood_jv, H3|constructor].
  - apply jgood_opt. eapply oall_imp; [|exact Hd]. intros l Hl. eapply Forall_impl; [|exact Hl]. intros x. apply item_json_good.
  - apply jgood_obj_of. apply Forall_forall. intros e H. apply in_map_iff in H. destruct H as ([k x] & <- & H). cbn [fst snd]. unfold data_sc in He. rewrite Forall_forall in He. destruct (He _ H) as (Hk & H1 & H2 & H3). cbn [fst snd] in *.
    split; [exact Hk|]. apply jgood_obj_of. apply Forall_app. split; [|apply Forall_app; split].
    + pairs; [apply jgood_jv, scal_list, H1|split; [reflexivity|constructor]|constructor].
    + apply str_key_good; [scalars|exact H2].
    + apply str_key_good; [scalars|exact H3].
Qed.

(** ** Extraction *)
Lemma sc_decode s : sc s -> sc (str_decode s).
Proof. unfold str_decode. intros H. eapply incl_Forall; [|exact H]. intros c Hc. destruct s as [|a s]; [destruct Hc|]. right. cbn [tl] in Hc. clear -Hc. induction s as [|b s IH]; [destruct Hc|]. destruct s as [|d s]; [destruct Hc|]. change (In c (b :: removelast (d :: s))) in Hc. destruct Hc as [<-|Hc]; [left; reflexivity|right; apply IH, Hc]. Qed.
Lemma scal_vstr v s : scal v -> vstr v = Ok s -> sc s.
Proof. destruct v; try discriminate. intros H [= <-]. exact (proj2 (scal_str _) H). Qed.
Lemma scal_vlist v l : scal v -> vlist v = Ok l -> lsc l.
Proof. destruct v as [| |l0]; try discriminate. intros H [= <-]. apply Forall_forall. intros x Hx. eapply scal_list_in; eassumption. Qed.
Lemma lsc_nth l i x : lsc l -> nth_error l i = Some x -> scal x.
Proof. intros H E. rewrite Forall_forall in H. apply H. eapply nth_error_In, E. Qed.
Lemma lsc_vnth l i x : lsc l -> vnth i l = Ok x -> scal x.
Proof. unfold vnth. intros H E. destruct (nth_error l i) eqn:F; [|discriminate]. injection E as <-. eapply lsc_nth; eassumption. Qed.
Lemma lsc_py l i x : lsc l -> py_nth l i = Ok x -> scal x.
Proof. unfold py_nth. intros H E. destruct (_ <? 0)%Z in E; [discriminate|]. destruct (nth_error l _) eqn:F in E; [|discriminate]. injection E as <-. eapply lsc_nth; eassumption. Qed.
Lemma Forall_set_nth (A : Type) (P : A -> Prop) i x l : Forall P l -> P x -> Forall P (set_nth i x l).
Proof. intros H Hx. apply Forall_forall. intros y Hy. destruct (set_nth_in _ _ _ _ Hy) as [->|Hi]; [exact Hx|]. rewrite Forall_forall in H. apply H, Hi. Qed.
Lemma Forall_firstn' (A : Type) (P : A -> Prop) n l : Forall P l -> Forall P (firstn n l).
Proof. intros H. rewrite <- (firstn_skipn n l) in H. apply Forall_app in H. apply H. Qed.
Lemma Forall_skipn' (A : Type) (P : A -> Prop) n l : Forall P l -> Forall P (skipn n l).
Proof. intros H. rewrite <- (firstn_skipn n l) in H. apply Forall_app in H. apply H. Qed.
Lemma sc_mark : scal (VStr kids_mark). Proof. apply scal_str. scalars. Qed.
Lemma mapm_all (A B : Type) (P : A -> Prop) (Q : B -> Prop) (f : A -> res B) : (forall x y, P x -> f x = Ok y -> Q y) -> forall l ys, Forall P l -> mapm f l = Ok ys -> Forall Q ys.
Proof.
  intros Hf. induction l as [|x l IH]; intros ys Hl H; [injection H as <-; constructor|]. inversion Hl; subst. cbn [mapm] in H.
  destruct (f x) as [y|] eqn:E; [|discriminate]. cbn [bind] in H. destruct (mapm f l) as [zs|] eqn:F; [|discriminate]. injection H as <-. constructor; eauto.
Qed.
Lemma item_name_sc at_ raw n : scal raw -> item_name at_ raw = Ok n -> sc n.
Proof.
  unfold item_name. intros H E. destruct (vget raw at_) as [v|] eqn:F; [|discriminate]. cbn [bind] in E. destruct (vstr v) as [s|] eqn:G; [|discriminate]. injection E as <-.
  apply sc_decode. eapply scal_vstr; [|exact G]. eapply scal_vget; eassumption.
Qed.
Lemma col_dec_sc raw c : scal raw -> col_dec raw = Ok c -> col_sc c.
Proof.
  unfold col_dec. intros H E. destruct (item_name 3 raw) as [n|] eqn:F; [|discriminate]. cbn [bind] in E. destruct (vget raw 1) as [i|] eqn:G; [|discriminate]. injection E as <-.
  repeat split; [eapply item_name_sc; eassumption|eapply scal_vget; eassumption|exact H].
Qed.
Lemma set_pattern_sc s raw raw' : sc s -> scal raw -> set_pattern s raw = Ok raw' -> scal raw'.
Proof.
  unfold set_pattern. intros Hs H E. destruct (vget raw 5) as [p|] eqn:E1; [|discriminate]. cbn [bind] in E. destruct (vget p 1) as [a|] eqn:E2; [|discriminate]. cbn [bind] in E.
  destruct (Payload.vset a 1 (VStr s)) as [a'|] eqn:E3; [|discriminate]. cbn [bind] in E. destruct (Payload.vset p 1 a') as [p'|] eqn:E4; [|discriminate]. cbn [bind] in E.
  assert (Hp : scal p) by (eapply scal_vget; eassumption). assert (Ha : scal a) by (eapply scal_vget; eassumption).
  eapply scal_vset; [exact H| |exact E]. eapply scal_vset; [exact Hp| |exact E4]. eapply scal_vset; [exact Ha| |exact E3]. exact (proj1 (scal_str s) Hs).
Qed.
(** what [run_dec] needs *)
Definition dec_sc (A : Type) (P : A -> Prop) (dec : val -> val * res A) : Prop :=
  forall raw, scal raw -> scal (fst (dec raw)) /\ forall y, snd (dec raw) = Ok y -> P y.
Lemma prop_dec_sc parent : dec_sc prop_sc (prop_dec parent).
Proof.
  intros raw H. unfold prop_dec.
  destruct (_ <- item_name 3 raw ;; _) as [[[[n i] c] mine]|e] eqn:E; cbn [fst snd]; [|split; [exact H|discriminate]].
  destruct (item_name 3 raw) as [n0|] eqn:E1; [|discriminate]. cbn [bind] in E. destruct (vget raw 1) as [i0|] eqn:E2; [|discriminate]. cbn [bind] in E. destruct (vget i0 0) as [i1|] eqn:E3; [|discriminate]. cbn [bind] in E.
  assert (Hn : sc n0) by (eapply item_name_sc; eassumption). assert (Hi : scal i1) by (eapply scal_vget; [eapply scal_vget; eassumption|exact E3]).
  destruct (vget raw cols_at) as [cv|] eqn:E4; [|discriminate]. cbn [bind] in E. destruct (int_of_val cv) as [cz|] eqn:E5; [|discriminate]. cbn [bind] in E.
  assert (E' : n0 = n /\ i1 = i /\ cz = c) by (destruct (match parent with Some p => pattern_is p raw | None => Ok false end); [injection E as <- <- <- _; auto|discriminate]). destruct E' as (-> & -> & ->).
  destruct (if mine : bool then set_pattern parent_mark raw else Ok raw) as [raw1|e] eqn:E6; cbn [fst snd]; [|split; [exact H|discriminate]].
  assert (H1 : scal raw1) by (destruct mine; [eapply set_pattern_sc; [|exact H|exact E6]; scalars|injection E6 as <-; exact H]).
  destruct (c =? 0)%Z; [split; [exact H1|]; intros y [= <-]; repeat split; assumption|].
  destruct (l <- vlist raw1 ;; _) as [[l cs]|e] eqn:E7; cbn [fst snd]; [|split; [exact H1|discriminate]].
  destruct (vlist raw1) as [l0|] eqn:E8; [|discriminate]. cbn [bind] in E7. destruct (c <? 0)%Z; [discriminate|]. cbn [bind] in E7. destruct (take_at (S cols_at) (Z.to_nat c) l0) as [ks|] eqn:E9; [|discriminate]. cbn [bind] in E7.
  destruct (mapm col_dec ks) as [cs0|] eqn:E10; [|discriminate]. injection E7 as <- <-.
  assert (Hl : lsc l0) by (eapply scal_vlist; eassumption).
  assert (R : scal (VList (firstn cols_at l0 ++ VStr cols_mark :: skipn (S cols_at + Z.to_nat c) l0))).
  { apply scal_list, Forall_app. split; [apply Forall_firstn', Hl|]. constructor; [apply scal_str; scalars|apply Forall_skipn', Hl]. }
  split; [exact R|]. intros y [= <-]. repeat split; try assumption. cbn [pr_cols oall]. eapply (mapm_all (P := scal)); [intros x y; apply col_dec_sc| |exact E10].
  unfold take_at in E9. destruct (_ <? _)%nat; [discriminate|]. assert (ks = firstn (Z.to_nat c) (skipn (S cols_at) l0)) as -> by congruence. apply Forall_firstn'. exact (Forall_skipn' (S cols_at) Hl).
Qed.
Lemma cmd_dec_sc : dec_sc cmd_sc cmd_dec.
Proof.
  intros raw H. unfold cmd_dec. cbn [fst snd]. split; [exact H|]. intros y E. destruct (item_name 2 raw) as [n|] eqn:E1; [|discriminate]. cbn [bind] in E. destruct (vget raw 1) as [i0|] eqn:E2; [|discriminate]. cbn [bind] in E.
  destruct (vget i0 0) as [i1|] eqn:E3; [|discriminate]. injection E as <-. repeat split; [eapply item_name_sc; eassumption|eapply scal_vget; [eapply scal_vget; eassumption|exact E3]|exact H].
Qed.
Lemma par_dec_sc : dec_sc par_sc par_dec.
Proof. intros raw H. unfold par_dec. cbn [fst snd]. split; [exact H|]. intros y E. destruct (item_name 1 raw) as [n|] eqn:E1; [|discriminate]. injection E as <-. split; [eapply item_name_sc; eassumption|exact H]. Qed.
Lemma run_dec_sc (A : Type) (P : A -> Prop) dec : dec_sc P dec -> forall n l, lsc l -> lsc (fst (run_dec dec n l)) /\ oall (Forall P) (snd (run_dec dec n l)).
Proof.
  intros Hd. induction n as [|n IH]; intros l Hl; cbn [run_dec fst snd]; [split; [exact Hl|constructor]|]. destruct l as [|x r]; cbn [fst snd]; [split; [exact Hl|exact I]|]. inversion Hl as [|? ? Hx Hr]; subst.
  destruct (Hd x Hx) as [D1 D2]. destruct (dec x) as [x' y]. cbn [fst snd] in *. destruct y as [y|e]; cbn [fst snd]; [|split; [constructor; assumption|exact I]].
  destruct (IH r Hr) as [I1 I2]. destruct (run_dec dec n r) as [r' ys]. cbn [fst snd] in *. split; [constructor; assumption|]. destruct ys; [|exact I]. cbn [oall] in *. constructor; auto.
Qed.
Lemma list_dec_sc (A : Type) (P : A -> Prop) dec : dec_sc P dec -> forall at_ raw, lsc raw -> lsc (fst (list_dec dec at_ raw)) /\ oall (Forall P) (snd (list_dec dec at_ raw)).
Proof.
  intros Hd at_ raw H. unfold list_dec. destruct (nth_error raw at_) as [v|] eqn:E; [|split; [exact H|exact I]]. assert (Hv : scal v) by (eapply lsc_nth; eassumption).
  destruct v as [| |[|h [|c l]]]; try (split; [exact H|exact I]). destruct (int_of_val c) as [n|]; [|split; [exact H|exact I]]. destruct (_ || _); [split; [exact H|exact I]|].
  assert (L : lsc (h :: c :: l)) by (apply Forall_forall; intros x Hx; eapply scal_list_in; eassumption). inversion L as [|? ? Hh L1]; subst. inversion L1 as [|? ? Hc Hl]; subst.
  destruct (run_dec_sc Hd (Z.to_nat n) Hl) as [R1 R2]. destruct (run_dec dec (Z.to_nat n) l) as [l' ys]. cbn [fst snd] in *. destruct ys as [ys|]; cbn [fst snd].
  - split; [|exact R2]. apply Forall_set_nth; [exact H|]. apply scal_list. constructor; [exact Hh|]. constructor; [exact sc_mark|apply Forall_skipn', R1].
  - split; [|exact I]. apply Forall_set_nth; [exact H|]. apply scal_list. repeat (constructor; [assumption|]). exact R1.
Qed.

(** ** Elements *)
Inductive pnode_sc : pnode -> Prop := pnode_sc_intro n ks : sc n -> Forall (fun e => pnode_sc (snd e)) ks -> pnode_sc (PN n ks).
Notation idx_sc := (Forall (fun e : list N * pnode => pnode_sc (snd e))).
Lemma Forall_dset (A : Type) (P : list N * A -> Prop) k x d : P (k, x) -> Forall P d -> Forall P (dset k x d).
Proof.
  intros Hx H. induction H as [|[k' y] d Hy H IH]; cbn [dset]; [constructor; [exact Hx|constructor]|].
  destruct (str_eqb k k') eqn:E; [|constructor; assumption]. constructor; [|exact H]. apply str_eqb_spec in E. subst k'. exact Hx.
Qed.
Lemma fold_all (A B : Type) (f : res B -> A -> res B) (P : A -> Prop) (Q : B -> Prop) :
  (forall b x b', Q b -> P x -> f (Ok b) x = Ok b' -> Q b') -> (forall e x, f (Err e) x = Err e) -> forall l b0 b, Q b0 -> Forall P l -> fold_left f l (Ok b0) = Ok b -> Q b.
Proof.
  intros Hf He. assert (G : forall l e, fold_left f l (Err e) = Err e) by (induction l as [|x l IH]; intros e; [reflexivity|]; cbn [fold_left]; rewrite He; apply IH).
  induction l as [|x l IH]; intros b0 b Hb Hl E; [injection E as <-; exact Hb|]. inversion Hl; subst. cbn [fold_left] in E. destruct (f (Ok b0) x) as [b1|e] eqn:F; [eapply IH; [| |exact E]; eauto|rewrite G in E; discriminate].
Qed.
Lemma index_cols_sc cs d : oall (Forall col_sc) cs -> index_cols cs = Ok d -> idx_sc d.
Proof.
  unfold index_cols. intros H E. refine (@fold_all _ _ _ col_sc (fun d => idx_sc d) _ (fun e x => eq_refl) _ _ _ _ _ E).
  - intros b x b' Hb Hx Ef. cbn [bind] in Ef. destruct (id_str (co_id x)); [|discriminate]. injection Ef as <-. apply Forall_dset; [constructor; [apply Hx|constructor]|exact Hb].
  - constructor.
  - destruct cs; [exact H|constructor].
Qed.
Lemma index_props_sc ps d : oall (Forall prop_sc) ps -> index_props ps = Ok d -> idx_sc d.
Proof.
  unfold index_props. intros H E. refine (@fold_all _ _ _ prop_sc (fun d => idx_sc d) _ (fun e x => eq_refl) _ _ _ _ _ E).
  - intros b x b' Hb Hx Ef. cbn [bind] in Ef. destruct (id_str (pr_id x)); [|discriminate]. cbn [bind] in Ef. destruct (index_cols (pr_cols x)) as [ks|] eqn:F; [|discriminate]. injection Ef as <-.
    apply Forall_dset; [|exact Hb]. constructor; [apply Hx|]. eapply index_cols_sc; [|exact F]. apply Hx.
  - constructor.
  - destruct ps; [exact H|constructor].
Qed.
Lemma index_commands_sc cs d : oall (Forall cmd_sc) cs -> index_commands cs = Ok d -> Forall (fun e : list N * list N => sc (snd e)) d.
Proof.
  unfold index_commands. intros H E. refine (@fold_all _ _ _ cmd_sc (fun d => Forall (fun e : list N * list N => sc (snd e)) d) _ (fun e x => eq_refl) _ _ _ _ _ E).
  - intros b x b' Hb Hx Ef. cbn [bind] in Ef. destruct (id_str (cm_id x)); [|discriminate]. injection Ef as <-. apply Forall_dset; [apply Hx|exact Hb].
  - constructor.
  - destruct cs; [exact H|constructor].
Qed.
Lemma dget_all (A : Type) (P : A -> Prop) k x (d : list (list N * A)) : Forall (fun e => P (snd e)) d -> dget k d = Some x -> P x.
Proof. intros H E. apply dget_in in E. rewrite Forall_forall in H. exact (H _ E). Qed.
Lemma sc_join sep l : sc sep -> Forall (fun s => sc s) l -> sc (join sep l).
Proof. intros Hs H. induction H as [|x l Hx H IH]; [constructor|]. cbn [join]. destruct l; [exact Hx|]. apply Forall_app. split; [exact Hx|]. apply Forall_app. split; [exact Hs|exact IH]. Qed.
Lemma link_names_sc : forall n i link idx ns, idx_sc idx -> link_names n i link idx = Ok (Some ns) -> Forall (fun s => sc s) ns.
Proof.
  induction n as [|n IH]; intros i link idx ns Hi H; cbn [link_names] in H; [injection H as <-; constructor|].
  destruct (vget link (S i)) as [x|]; [|discriminate]. cbn [bind] in H. destruct (vget x 0) as [y|]; [|discriminate]. cbn [bind] in H. destruct (id_str y) as [id|]; [|discriminate]. cbn [bind] in H.
  destruct (dget id idx) as [[name kids]|] eqn:E; [|discriminate]. pose proof (@dget_all _ pnode_sc _ _ _ Hi E) as Hp. inversion Hp as [? ? Hn Hk]; subst.
  destruct (link_names n (S i) link kids) as [[ns'|]|] eqn:F; [|discriminate|discriminate]. injection H as <-. constructor; [exact Hn|]. eapply IH; eassumption.
Qed.
Lemma some_str_sc s : sc s -> oall (fun s => sc s) (some_str s).
Proof. destruct s; [exact (fun _ => I)|intros H; exact H]. Qed.
Lemma prop_of_sc idx k raw o : idx_sc idx -> prop_of idx k raw = Ok o -> oall (fun s => sc s) o.
Proof.
  unfold prop_of. intros Hi H. destruct (prop_at k); [|injection H as <-; exact I]. destruct (calc_offset _ raw) as [off|]; [|discriminate]. cbn [bind] in H. destruct (py_nth raw off) as [link|]; [|discriminate]. cbn [bind] in H.
  destruct (truthy link); [|injection H as <-; exact I]. destruct (vget link 0) as [h|]; [|discriminate]. cbn [bind] in H. destruct (int_of_val h) as [n|]; [|discriminate]. cbn [bind] in H.
  destruct (link_names _ _ _ _) as [[ns|]|] eqn:F; [| |discriminate]; injection H as <-; [|exact I]. apply some_str_sc, sc_join; [scalars|eapply link_names_sc; eassumption].
Qed.
Lemma cmd_of_sc idx k raw o : Forall (fun e : list N * list N => sc (snd e)) idx -> cmd_of idx k raw = Ok o -> oall (fun s => sc s) o.
Proof.
  unfold cmd_of. intros Hi H. destruct (command_at k); [|injection H as <-; exact I]. destruct (calc_offset _ raw) as [off|]; [|discriminate]. cbn [bind] in H. destruct (py_nth raw off) as [link|]; [|discriminate]. cbn [bind] in H.
  destruct (truthy link); [|injection H as <-; exact I]. destruct (vget link 0) as [h|]; [|discriminate]. cbn [bind] in H. destruct (int_of_val h) as [n|]; [|discriminate]. cbn [bind] in H.
  destruct (n =? 0)%Z; [injection H as <-; exact I|]. destruct (id_str h) as [id|]; [|discriminate]. cbn [bind] in H. injection H as <-. destruct (dget id idx) as [s|] eqn:F; [|exact I].
  apply some_str_sc. exact (@dget_all _ (fun s => sc s) _ _ _ Hi F).
Qed.
Lemma name_of_sc k raw n : lsc raw -> name_of k raw = Ok n -> sc n.
Proof.
  unfold name_of. intros Hr H. destruct (calc_offset _ raw) as [off|]; [|discriminate]. cbn [bind] in H. destruct (py_nth raw off) as [v|] eqn:F; [|discriminate]. cbn [bind] in H. assert (Hv : scal v) by (eapply lsc_py; eassumption).
  destruct v as [|[|c s]|]; try discriminate. injection H as <-. apply sc_decode. exact (proj2 (scal_str _) Hv).
Qed.
Lemma sc_path p n : sc p -> sc n -> sc (elem_path p n).
Proof. intros Hp Hn. destruct p; [exact Hn|]. unfold elem_path. apply Forall_app. split; [exact Hp|]. apply Forall_app. split; [scalars|exact Hn]. Qed.
Lemma split_go_sc sep : forall s skip, sc s -> Forall (fun s => sc s) (split_go sep skip s).
Proof.
  induction s as [|c s IH]; intros skip H; [destruct skip; repeat constructor|]. inversion H as [|? ? Hc Hs]; subst. destruct skip as [|k]; cbn [split_go].
  - destruct (starts sep (c :: s)); [constructor; [constructor|apply IH, Hs]|]. specialize (IH O Hs). unfold cons_first. destruct (split_go sep 0 s) as [|x r]; [constructor; [constructor; [exact Hc|constructor]|constructor]|]. inversion IH; subst. constructor; [constructor; assumption|assumption].
  - apply IH, Hs.
Qed.
Lemma sc_kids_path k p n : sc p -> sc n -> sc (kids_path k p n).
Proof.
  intros Hp Hn. pose proof (sc_path Hp Hn) as H. destruct k; try exact H. unfold kids_path, str_replace. apply sc_join; [scalars|]. apply split_go_sc, H.
Qed.
Lemma dec_pairs_sc (P : fitem -> Prop) (f : fkind -> list val -> list (list N * edata) -> res (fitem * list val * list (list N * edata))) :
  (forall k el d x raw d', lsc el -> data_sc d -> f k el d = Ok (x, raw, d') -> P x /\ data_sc d') ->
  forall n l d xs d', lsc l -> data_sc d -> dec_pairs f n l d = Ok (xs, d') -> Forall P xs /\ data_sc d'.
Proof.
  intros Hf. induction n as [|n IH]; intros l d xs d' Hl Hd H; cbn [dec_pairs] in H; [injection H as <- <-; split; [constructor|exact Hd]|].
  destruct l as [|[|ty|] [|[| |el] rest]]; try discriminate. inversion Hl as [|? ? H1 Hl1]; subst. inversion Hl1 as [|? ? H2 Hl2]; subst.
  destruct (kind_by kind_uuid ty) as [k|]; [|discriminate]. destruct (f k el d) as [[[x raw] d1]|] eqn:E; [|discriminate]. cbn [bind] in H.
  destruct (dec_pairs f n rest d1) as [[xs' d2]|] eqn:F; [|discriminate]. injection H as <- <-.
  destruct (Hf _ _ _ _ _ _ (scal_vlist H2 eq_refl) Hd E) as [Hx Hd1]. destruct (IH _ _ _ _ Hl2 Hd1 F) as [Hxs Hd2]. split; [constructor; assumption|exact Hd2].
Qed.
Lemma dec_list_sc (P : fitem -> Prop) (f : fkind -> list val -> list (list N * edata) -> res (fitem * list val * list (list N * edata))) :
  (forall k el d x raw d', lsc el -> data_sc d -> f k el d = Ok (x, raw, d') -> P x /\ data_sc d') ->
  forall idx raw d xs raw' d', lsc raw -> data_sc d -> dec_list f idx raw d = Ok (xs, raw', d') -> oall (Forall P) xs /\ lsc raw' /\ data_sc d'.
Proof.
  intros Hf idx raw d xs raw' d' Hr Hd H. unfold dec_list in H. destruct (py_nth raw idx) as [c|]; [|discriminate]. cbn [bind] in H. destruct (int_of_val c) as [n|]; [|discriminate]. cbn [bind] in H.
  destruct (n =? 0)%Z; [injection H as <- <- <-; split; [exact I|split; assumption]|]. destruct (_ || _); [discriminate|].
  destruct (dec_pairs f _ _ d) as [[ys d1]|] eqn:E; [|discriminate]. injection H as <- <- <-. destruct (@dec_pairs_sc P f Hf _ _ _ _ _ (@Forall_skipn' _ _ _ _ Hr) Hd E) as [Hy Hd1].
  split; [exact Hy|]. split; [|exact Hd1]. apply Forall_app. split; [apply Forall_firstn', Hr|]. constructor; [exact sc_mark|apply (Forall_skipn' (S (Z.to_nat idx) + 2 * Z.to_nat n) Hr)].
Qed.
Lemma dec_elem_sc props cmds : idx_sc props -> Forall (fun e : list N * list N => sc (snd e)) cmds ->
  forall fuel path k raw d x raw' d', sc path -> lsc raw -> data_sc d -> dec_elem props cmds fuel path k raw d = Ok (x, raw', d') -> item_sc x /\ data_sc d'.
Proof.
  intros Hps Hcs. induction fuel as [|fuel IH]; intros path k raw d x raw' d' Hp Hr Hd H; [discriminate|]. cbn [dec_elem] in H.
  destruct (check_size k raw); [|discriminate]. cbn [bind] in H. destruct (name_of k raw) as [n|] eqn:E1; [|discriminate]. cbn [bind] in H. destruct (prop_of props k raw) as [p|] eqn:E2; [|discriminate]. cbn [bind] in H.
  destruct (cmd_of cmds k raw) as [c|] eqn:E3; [|discriminate]. cbn [bind] in H.
  assert (Hn : sc n) by exact (@name_of_sc _ _ _ Hr E1). assert (Hpp : oall (fun s => sc s) p) by exact (@prop_of_sc _ _ _ _ Hps E2). assert (Hcc : oall (fun s => sc s) c) by exact (@cmd_of_sc _ _ _ _ Hcs E3).
  destruct (kids_at k) as [at_|].
  - destruct (calc_offset at_ raw) as [idx|]; [|discriminate]. cbn [bind] in H.
    destruct (dec_list (dec_elem props cmds fuel (kids_path k path n)) idx raw d) as [[[kids raw1] d1]|] eqn:E4; [|discriminate]. cbn [bind] in H. injection H as <- <- <-.
    destruct (dec_list_sc item_sc (dec_elem props cmds fuel (kids_path k path n))) with (2 := Hr) (3 := Hd) (4 := E4) as (K1 & K2 & K3).
    { intros k0 el d0 x0 raw0 d0' Hel Hd0 E0. eapply IH; [| | |exact E0]; [apply sc_kids_path; assumption|exact Hel|exact Hd0]. }
    split; [constructor; [exact Hn|intros l ->; exact K1]|]. apply Forall_dset; [|exact K3]. split; [apply sc_path; assumption|]. split; [exact K2|split; assumption].
  - injection H as <- <- <-. split; [constructor; [exact Hn|discriminate]|]. apply Forall_dset; [|exact Hd]. split; [apply sc_path; assumption|]. split; [exact Hr|split; assumption].
Qed.
Theorem elems_decode_sc parent raw raw' fe : lsc raw -> elems_decode parent raw = Ok (raw', fe) -> lsc raw' /\ fe_sc fe.
Proof.
  intros Hr H. unfold elems_decode in H.
  destruct (list_dec_sc (prop_dec_sc parent) 3 Hr) as [A1 A2]. destruct (list_dec (prop_dec parent) 3 raw) as [raw1 props]. cbn [fst snd] in *.
  destruct (list_dec_sc cmd_dec_sc 5 A1) as [B1 B2]. destruct (list_dec cmd_dec 5 raw1) as [raw2 cmds]. cbn [fst snd] in *.
  destruct (root_of raw2) as [root|] eqn:E1; [|discriminate]. cbn [bind] in H. destruct (elem_index root) as [idx|]; [|discriminate]. cbn [bind] in H.
  destruct (index_props props) as [pidx|] eqn:E2; [|discriminate]. cbn [bind] in H. destruct (index_commands cmds) as [cidx|] eqn:E3; [|discriminate]. cbn [bind] in H.
  assert (Hroot : lsc root). { unfold root_of in E1. destruct (vnth 1 raw2) as [v|] eqn:F; [|discriminate]. cbn [bind] in E1. eapply scal_vlist; [|exact E1]. eapply lsc_vnth; eassumption. }
  destruct (dec_list _ idx root []) as [[[tree root1] d]|] eqn:E4; [|discriminate]. cbn [bind] in H.
  destruct (dec_list_sc item_sc (dec_elem pidx cidx (vdepth (VList root)) [])) with (2 := Hroot) (4 := E4) as (K1 & K2 & K3).
  { intros k0 el d0 x0 raw0 d0' Hel Hd0 E0. eapply dec_elem_sc; [| | | | |exact E0]; [exact (@index_props_sc _ _ A2 E2)|exact (@index_commands_sc _ _ B2 E3)|constructor|exact Hel|exact Hd0]. }
  { constructor. }
  assert (C : lsc (set_nth 1 (VList root1) raw2)) by (apply Forall_set_nth; [exact B1|apply scal_list, K2]).
  destruct (list_dec_sc par_dec_sc 4 C) as [D1 D2]. destruct (list_dec par_dec 4 (set_nth 1 (VList root1) raw2)) as [raw3 params]. cbn [fst snd] in *. injection H as <- <-.
  split; [exact D1|]. split; [exact D2|]. split; [exact A2|]. split; [exact B2|]. split.
  - cbn [fe_tree oall]. destruct tree; [exact K1|constructor].
  - cbn [fe_data]. unfold data_sc. eapply Permutation_Forall; [apply Permutation_sym, sort_perm|exact K3].
Qed.
