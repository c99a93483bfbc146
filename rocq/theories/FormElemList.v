(** The properties, commands and parameters of managed forms. *)
From Coq Require Import Lia Permutation.
From Verif Require Import PyBase PyInt Brace Header CalcOffset Container HeaderProofs Spec_Misc MiscProofs MetaObjBase FormCode Payload MetaObj FormElem Spec_FormElem FormElemBase FormElemProofs.
Set Implicit Arguments.
Open Scope list_scope.
Open Scope N_scope.

(** ** A list in a section *)
Definition put (i : nat) (o : option val) (l : list val) : list val := match o with Some s => set_nth i s l | None => l end.
Lemma put_nth i o l j : nth_error (put i o l) j = if (i =? j)%nat then match o, nth_error l j with Some s, Some _ => Some s | _, x => x end else nth_error l j.
Proof.
  destruct o as [s|]; cbn [put]; [|destruct (i =? j)%nat; [destruct (nth_error l j)|]; reflexivity].
  destruct (i =? j)%nat eqn:E; [|apply Nat.eqb_neq in E; apply set_nth_other; exact E]. apply Nat.eqb_eq in E. subst j. destruct (nth_error l i) as [y|] eqn:El.
  - eapply set_nth_same, El.
  - apply nth_error_None. rewrite set_nth_len. apply nth_error_None, El.
Qed.
Lemma nth_ext (A : Type) (a b : list A) : (forall j, nth_error a j = nth_error b j) -> a = b.
Proof.
  revert b. induction a as [|x a IH]; intros [|y b] H; [reflexivity|specialize (H O); discriminate|specialize (H O); discriminate|].
  f_equal; [specialize (H O); cbn in H; congruence|]. apply IH. intros j. apply (H (S j)).
Qed.
Lemma run_dec_ok (A : Type) (dec : val -> val * res A) vs ys more : Forall2 (fun v y => exists v', dec v = (v', Ok y)) vs ys ->
  exists vs', run_dec dec (length vs) (vs ++ more) = (vs' ++ more, Some ys) /\ length vs' = length vs.
Proof.
  induction 1 as [|v y vs ys [v' Hv] _ (vs' & IH & Hl)]; [exists []; split; reflexivity|]. exists (v' :: vs'). cbn [length run_dec app]. rewrite Hv, IH. split; [reflexivity|cbn [length]; lia].
Qed.
Lemma mapm_ok (A B : Type) (f : A -> res B) xs ys : Forall2 (fun y x => f x = Ok y) ys xs -> mapm f xs = Ok ys.
Proof. induction 1 as [|y x ys xs H _ IH]; [reflexivity|]. cbn [mapm]. rewrite H. cbn [bind]. rewrite IH. reflexivity. Qed.
Definition some_of (A : Type) (l : list A) : option (list A) := match l with [] => None | _ => Some l end.
(** what extraction leaves of a section *)
Definition left_of (vs : list val) (o : option val) : option val :=
  match vs, o with _ :: _, Some (VList (h :: _ :: l)) => Some (VList (h :: VStr kids_mark :: skipn (length vs) l)) | _, _ => None end.
Lemma section_dec (A : Type) (dec : val -> val * res A) i vs ys raw r : section_at i vs raw -> nth_error r i = nth_error raw i -> Forall2 (fun v y => exists v', dec v = (v', Ok y)) vs ys ->
  list_dec dec i r = (put i (left_of vs (nth_error raw i)) r, some_of ys).
Proof.
  intros Hs Hr Hd. unfold section_at in Hs. unfold list_dec. rewrite Hr. destruct (nth_error raw i) as [sec|]; [|subst vs; inversion Hd; subst; reflexivity].
  destruct Hs as (h & more & ->). rewrite number_int. destruct vs as [|v vs]; [inversion Hd; subst; reflexivity|].
  replace ((Z.of_nat (length (v :: vs)) =? 0)%Z || (Z.of_nat (length (v :: vs)) <? 0)%Z) with false by (cbn [length]; lia). rewrite Nat2Z.id.
  destruct (run_dec_ok _ more Hd) as (vs' & -> & Hl). cbn [left_of put]. rewrite <- Hl at 1. rewrite !skipn_app, !skipn_all, Hl, !Nat.sub_diag. cbn [skipn app]. inversion Hd; subst. reflexivity.
Qed.
Lemma section_enc (A : Type) (enc : A -> res val) i vs ys raw r : section_at i vs raw -> nth_error r i = match left_of vs (nth_error raw i) with Some s => Some s | None => nth_error raw i end -> Forall2 (fun v y => enc y = Ok v) vs ys ->
  list_enc enc i (some_of ys) r = Ok (put i (match vs with [] => None | _ => nth_error raw i end) r, some_of ys).
Proof.
  intros Hs Hr He. unfold section_at in Hs. unfold list_enc. rewrite Hr. destruct (nth_error raw i) as [sec|] eqn:Er; [|subst vs; inversion He; subst; reflexivity].
  destruct Hs as (h & more & ->). destruct vs as [|v vs].
  - inversion He; subst. cbn [left_of length app vget nth_error bind]. rewrite number_mark. reflexivity.
  - assert (Hsk : skipn (length (v :: vs)) ((v :: vs) ++ more) = more) by (rewrite skipn_app, skipn_all, Nat.sub_diag; reflexivity).
    cbn [left_of]. rewrite Hsk. cbn [vget nth_error bind is_str]. rewrite (proj2 (str_eqb_spec kids_mark kids_mark) eq_refl). cbn [vlist bind]. inversion He as [|? y ? ys' Hy Hys]; subst. cbn [some_of].
    rewrite (mapm_ok _ He). replace (length (y :: ys')) with (length (v :: vs)) by (clear -He; induction He; cbn [length] in *; congruence). reflexivity.
Qed.

(** ** Properties *)
Definition patset (s : list N) (p : val) : val := match p with VList (x :: VList (h :: _ :: r) :: q) => VList (x :: VList (h :: VStr s :: r) :: q) | _ => p end.
Definition patmine (s : list N) (p : val) : bool := match p with VList (_ :: VList (VStr h :: VStr t :: _) :: _) => str_eqb h s_hash && str_eqb t s | _ => false end.
Lemma pattern_read s a0 a1 a2 a3 a4 pat r : pattern_ok pat -> pattern_is s (VList (a0 :: a1 :: a2 :: a3 :: a4 :: pat :: r)) = Ok (patmine s pat).
Proof.
  intros Hp. unfold pattern_is. cbn [vget nth_error bind]. destruct pat as [|t|l]; [destruct Hp| |].
  - destruct t as [|c [|c' t]]; try reflexivity. cbn [truthy vlen length Nat.eqb negb andb]. change (1 <? S (S (length t)))%nat with true. cbn [vget nth_error bind is_str]. replace (str_eqb [c'] s_hash) with false; [reflexivity|]. symmetry. destruct (str_eqb [c'] s_hash) eqn:E; [|reflexivity]. apply str_eqb_spec in E. discriminate.
  - destruct l as [|x [|y l]]; try reflexivity. cbn [truthy vlen length Nat.eqb negb andb]. change (1 <? S (S (length l)))%nat with true. cbn [vget nth_error bind]. cbn iota.
    destruct y as [|s0|[|h t]]; [destruct Hp| |destruct Hp|].
    + destruct s0 as [|c s0]; [destruct Hp|]. cbn [vget nth_error bind is_str]. replace (str_eqb [c] s_hash) with false; [reflexivity|]. symmetry. destruct (str_eqb [c] s_hash) eqn:E; [|reflexivity]. apply str_eqb_spec in E. discriminate.
    + cbn [vget nth_error bind]. destruct h as [|h|h]; cbn [is_str]; [reflexivity| |reflexivity]. cbn [pattern_ok] in Hp. destruct (str_eqb h s_hash) eqn:E.
      * apply str_eqb_spec in E. subst h. destruct (Hp eq_refl) as (t0 & r0 & -> & _). cbn [nth_error bind is_str patmine]. reflexivity.
      * destruct t as [|[| |] t]; cbn [patmine]; rewrite ?E; reflexivity.
Qed.
Lemma pattern_set s s' a0 a1 a2 a3 a4 pat r : patmine s pat = true -> set_pattern s' (VList (a0 :: a1 :: a2 :: a3 :: a4 :: pat :: r)) = Ok (VList (a0 :: a1 :: a2 :: a3 :: a4 :: patset s' pat :: r)).
Proof.
  intros Hm. destruct pat as [|t|[|x [|y l]]]; try discriminate. destruct y as [|s0|[|h t]]; try discriminate. destruct h as [|h|h]; try discriminate. destruct t as [|[|t|] r']; try discriminate. reflexivity.
Qed.
Lemma patset_mine s s' pat : patmine s pat = true -> patmine s' (patset s' pat) = true.
Proof.
  intros Hm. destruct pat as [|t|[|x [|y l]]]; try discriminate. destruct y as [|s0|[|h t]]; try discriminate. destruct h as [|h|h]; try discriminate. destruct t as [|[|t|] r']; try discriminate. cbn [patmine patset] in *.
  apply andb_true_iff in Hm. destruct Hm as [-> _]. rewrite (proj2 (str_eqb_spec s' s') eq_refl). reflexivity.
Qed.
Lemma patset_back s s' pat : patmine s pat = true -> patset s (patset s' pat) = pat.
Proof.
  intros Hm. destruct pat as [|t|[|x [|y l]]]; try discriminate. destruct y as [|s0|[|h t]]; try discriminate. destruct h as [|h|h]; try discriminate. destruct t as [|[|t|] r']; try discriminate. cbn [patmine patset] in *.
  apply andb_true_iff in Hm. destruct Hm as [_ E]. apply str_eqb_spec in E. subst. reflexivity.
Qed.
Lemma patmine_not pat : pattern_ok pat -> patmine parent_mark pat = false.
Proof.
  intros Hp. destruct pat as [|t|[|x [|y l]]]; try reflexivity. destruct y as [|s0|[|h t]]; try reflexivity. destruct h as [|h|h]; try reflexivity. destruct t as [|[|t|] r']; try reflexivity. cbn [patmine pattern_ok] in *.
  destruct (str_eqb h s_hash) eqn:E; [|reflexivity]. apply str_eqb_spec in E. destruct (Hp E) as (t0 & r0 & Q & Hne). injection Q as <- <-. cbn [andb]. destruct (str_eqb t parent_mark) eqn:Et; [|reflexivity]. apply str_eqb_spec in Et. contradiction.
Qed.
(** the parent of a form has a name, if any *)
Definition parent_ok (parent : option (list N)) : Prop := parent <> Some [].
Definition mine_of (parent : option (list N)) (p : val) : bool := match parent with Some s => patmine s p | None => false end.
Definition pat_kept (parent : option (list N)) (p : val) : val := if mine_of parent p then patset parent_mark p else p.
Lemma patset_ok s pat : pattern_ok pat -> patmine s pat = true -> forall s', patset s' pat = VStr [] -> False.
Proof. intros _ Hm s'. destruct pat as [|t|[|x [|y l]]]; try discriminate. destruct y as [|s0|[|h t]]; try discriminate. destruct h as [|h|h]; try discriminate. destruct t as [|[|t|] r']; discriminate. Qed.
Lemma pattern_read_kept parent a0 a1 a2 a3 a4 pat r : pattern_ok pat -> pattern_is parent_mark (VList (a0 :: a1 :: a2 :: a3 :: a4 :: pat_kept parent pat :: r)) = Ok (mine_of parent pat).
Proof.
  intros Hp. unfold pat_kept. destruct (mine_of parent pat) eqn:Em.
  - destruct parent as [s|]; [|discriminate]. cbn [mine_of] in Em. destruct pat as [|t|[|x [|y l]]]; try discriminate. destruct y as [|s0|[|h t]]; try discriminate. destruct h as [|h|h]; try discriminate. destruct t as [|[|t|] r']; try discriminate.
    cbn [patmine patset] in *. apply andb_true_iff in Em. destruct Em as [E _]. apply str_eqb_spec in E. subst h. unfold pattern_is. cbn [vget nth_error bind truthy vlen length Nat.eqb negb andb]. change (1 <? S (S (length l)))%nat with true. cbn iota. cbn [vget nth_error bind is_str]. rewrite (proj2 (str_eqb_spec s_hash s_hash) eq_refl), (proj2 (str_eqb_spec parent_mark parent_mark) eq_refl). reflexivity.
  - rewrite pattern_read by exact Hp. rewrite patmine_not by exact Hp. reflexivity.
Qed.
(** a property as it is kept *)
Lemma cols_read : forall cs vs, Forall2 col_at cs vs -> mapm col_dec vs = Ok (map (fun cv : (list N * list N) * val => mkcol (fst (fst cv)) (VStr (snd (fst cv))) (snd cv)) (combine cs vs)).
Proof.
  induction 1 as [|c v cs vs (c0 & c2 & r & ->) _ IH]; [reflexivity|]. cbn [mapm combine map fst snd]. unfold col_dec at 1. unfold item_name. cbn [vget nth_error bind quoted vstr]. rewrite quoted_dec, IH. reflexivity.
Qed.
Definition fcols_of (p : sprop) (vs : list val) : option (list fcol) := some_of (map (fun cv : (list N * list N) * val => mkcol (fst (fst cv)) (VStr (snd (fst cv))) (snd cv)) (combine (sp_cols p) vs)).
Definition fprop_ok (p : sprop) (f : fprop) : Prop := pr_name f = sp_name p /\ pr_id f = VStr (sp_id p) /\ exists vs, length vs = length (sp_cols p) /\ pr_cols f = fcols_of p vs.
Lemma combine_raws cs : forall vs, length vs = length cs -> map co_raw (map (fun cv : (list N * list N) * val => mkcol (fst (fst cv)) (VStr (snd (fst cv))) (snd cv)) (combine cs vs)) = vs.
Proof. induction cs as [|c cs IH]; intros [|v vs] H; try discriminate; [reflexivity|]. cbn [combine map fst snd co_raw]. rewrite IH by (cbn in H; lia). reflexivity. Qed.
Lemma F2len (A B : Type) (R : A -> B -> Prop) a b : Forall2 R a b -> length b = length a.
Proof. induction 1; cbn [length]; congruence. Qed.
Lemma prop_through parent p v : parent_ok parent -> prop_is p v -> exists v' f, prop_dec parent v = (v', Ok f) /\ prop_enc parent f = Ok v /\ fprop_ok p f.
Proof.
  intros Hpar (a0 & i & a2 & a4 & pat & mid & cols & r & -> & Hm & Hp & Hc). pose proof (F2len Hc) as Hlen.
  destruct mid as [|m0 [|m1 [|m2 [|m3 [|m4 [|m5 [|m6 [|]]]]]]]]; try discriminate. cbn [app].
  set (n := number (length (sp_cols p))).
  assert (Emine : match parent with Some s => pattern_is s (VList (a0 :: VList (VStr (sp_id p) :: i) :: a2 :: quoted (sp_name p) :: a4 :: pat :: m0 :: m1 :: m2 :: m3 :: m4 :: m5 :: m6 :: n :: cols ++ r)) | None => Ok false end = Ok (mine_of parent pat)).
  { destruct parent as [s|]; [apply pattern_read, Hp|reflexivity]. }
  assert (Eset : (if mine_of parent pat then set_pattern parent_mark (VList (a0 :: VList (VStr (sp_id p) :: i) :: a2 :: quoted (sp_name p) :: a4 :: pat :: m0 :: m1 :: m2 :: m3 :: m4 :: m5 :: m6 :: n :: cols ++ r)) else Ok (VList (a0 :: VList (VStr (sp_id p) :: i) :: a2 :: quoted (sp_name p) :: a4 :: pat :: m0 :: m1 :: m2 :: m3 :: m4 :: m5 :: m6 :: n :: cols ++ r))) =
     Ok (VList (a0 :: VList (VStr (sp_id p) :: i) :: a2 :: quoted (sp_name p) :: a4 :: pat_kept parent pat :: m0 :: m1 :: m2 :: m3 :: m4 :: m5 :: m6 :: n :: cols ++ r))).
  { unfold pat_kept. destruct (mine_of parent pat) eqn:E; [|reflexivity]. destruct parent as [s|]; [|discriminate]. eapply pattern_set. exact E. }
  assert (Eback : forall rest, (mine <- pattern_is parent_mark (VList (a0 :: VList (VStr (sp_id p) :: i) :: a2 :: quoted (sp_name p) :: a4 :: pat_kept parent pat :: rest)) ;;
      match parent with Some (c :: t) => if mine : bool then set_pattern (c :: t) (VList (a0 :: VList (VStr (sp_id p) :: i) :: a2 :: quoted (sp_name p) :: a4 :: pat_kept parent pat :: rest)) else Ok (VList (a0 :: VList (VStr (sp_id p) :: i) :: a2 :: quoted (sp_name p) :: a4 :: pat_kept parent pat :: rest)) | _ => Ok (VList (a0 :: VList (VStr (sp_id p) :: i) :: a2 :: quoted (sp_name p) :: a4 :: pat_kept parent pat :: rest)) end)
      = Ok (VList (a0 :: VList (VStr (sp_id p) :: i) :: a2 :: quoted (sp_name p) :: a4 :: pat :: rest))).
  { intros rest. rewrite pattern_read_kept by exact Hp. cbn [bind]. unfold pat_kept. destruct parent as [[|c t]|]; [unfold parent_ok in Hpar; congruence| |reflexivity]. destruct (mine_of (Some (c :: t)) pat) eqn:E; [|reflexivity]. cbn [mine_of] in E.
    rewrite (pattern_set parent_mark) by (eapply patset_mine; exact E). rewrite patset_back by exact E. reflexivity. }
  unfold prop_dec. unfold item_name at 1. cbn [vget nth_error bind quoted vstr cols_at]. cbn [quoted] in *. rewrite quoted_dec, Emine. unfold n at 1. rewrite number_int. cbn [bind]. rewrite Eset.
  destruct (sp_cols p) as [|c0 cs] eqn:Ec.
  - cbn [length] in *. destruct cols; [|discriminate]. change (Z.of_nat 0 =? 0)%Z with true. cbn iota. do 2 eexists. split; [reflexivity|]. split.
    + unfold prop_enc. cbn [pr_raw pr_cols]. specialize (Eback (m0 :: m1 :: m2 :: m3 :: m4 :: m5 :: m6 :: n :: [] ++ r)). cbn [app] in Eback |- *.
      destruct (pattern_is parent_mark _) as [mm|]; [|discriminate]. cbn [bind] in *. destruct parent as [[|c t]|]; [|destruct mm|]; rewrite ?Eback; cbn [bind]; try exact Eback; reflexivity.
    + split; [reflexivity|]. split; [reflexivity|]. exists []. rewrite Ec. split; [reflexivity|]. unfold fcols_of. rewrite Ec. reflexivity.
  - replace (Z.of_nat (length (c0 :: cs)) =? 0)%Z with false by (cbn [length]; lia). replace (Z.of_nat (length (c0 :: cs)) <? 0)%Z with false by lia. cbn [vlist bind]. rewrite Nat2Z.id.
    unfold take_at. change (S cols_at) with 14%nat. match goal with |- context [(length ?l <? _)%nat] => set (L := l) end.
    assert (HL : (length L <? 14 + length (c0 :: cs))%nat = false). { apply Nat.ltb_ge. unfold L. cbn [length]. rewrite app_length, Hlen. cbn [length]. lia. } rewrite HL.
    assert (Hk : firstn (length (c0 :: cs)) (skipn 14 L) = cols). { unfold L. cbn [skipn]. rewrite <- Hlen. rewrite firstn_app, firstn_all, Nat.sub_diag. cbn [firstn]. apply app_nil_r. } rewrite Hk. cbn [bind].
    rewrite (cols_read Hc). cbn [bind]. do 2 eexists. split; [reflexivity|].
    assert (Hr : skipn (14 + length (c0 :: cs)) L = r). { unfold L. change (14 + length (c0 :: cs))%nat with (S (S (S (S (S (S (S (S (S (S (S (S (S (S (length (c0 :: cs)))))))))))))))). cbn [skipn]. rewrite <- Hlen. rewrite skipn_app, skipn_all, Nat.sub_diag. reflexivity. }
    split.
    + unfold prop_enc. cbn [pr_raw pr_cols]. rewrite Hr. assert (Hf : firstn 13 L = [a0; VList (VStr (sp_id p) :: i); a2; VStr (34 :: sp_name p ++ [34]); a4; pat_kept parent pat; m0; m1; m2; m3; m4; m5; m6]) by reflexivity. change (firstn cols_at L) with (firstn 13 L). rewrite Hf. cbn [app].
      specialize (Eback (m0 :: m1 :: m2 :: m3 :: m4 :: m5 :: m6 :: VStr cols_mark :: r)).
      destruct (pattern_is parent_mark _) as [mm|]; [|discriminate]. cbn [bind] in *.
      assert (Hfin : forall x, x = Ok (VList (a0 :: VList (VStr (sp_id p) :: i) :: a2 :: VStr (34 :: sp_name p ++ [34]) :: a4 :: pat :: m0 :: m1 :: m2 :: m3 :: m4 :: m5 :: m6 :: VStr cols_mark :: r)) ->
         (raw <- x ;; match map (fun cv : (list N * list N) * val => mkcol (fst (fst cv)) (VStr (snd (fst cv))) (snd cv)) (combine (c0 :: cs) cols) with
           | c :: cs => raw <- Payload.vset raw cols_at (VStr (str_of_int (Z.of_nat (length (c :: cs))))) ;; l <- vlist raw ;; Ok (VList (firstn (S cols_at) l ++ map co_raw (c :: cs) ++ skipn (S cols_at) l))
           | [] => Ok raw end) = Ok (VList (a0 :: VList (VStr (sp_id p) :: i) :: a2 :: VStr (34 :: sp_name p ++ [34]) :: a4 :: pat :: m0 :: m1 :: m2 :: m3 :: m4 :: m5 :: m6 :: n :: cols ++ r))).
      { intros x ->. cbn [bind]. destruct (map _ (combine (c0 :: cs) cols)) as [|q qs] eqn:Eq; [destruct cols; discriminate|]. rewrite <- Eq. rewrite map_length, combine_length, Hlen, Nat.min_id. cbn [Payload.vset cols_at nth_error set_nth bind vlist firstn skipn app]. rewrite combine_raws by exact Hlen. reflexivity. }
      destruct parent as [[|c t]|]; [|destruct mm|]; (apply Hfin; exact Eback).
    + split; [reflexivity|]. split; [reflexivity|]. exists cols. rewrite Ec. split; [exact Hlen|]. unfold fcols_of. rewrite Ec. destruct cols; [discriminate|]. reflexivity.
Qed.
Lemma cmd_through c v : cmd_is c v -> exists f, cmd_dec v = (v, Ok f) /\ cmd_enc f = Ok v /\ cm_name f = sc_name c /\ cm_id f = VStr (sc_id c) /\ vget (cm_raw f) 1 = Ok (sc_ref c).
Proof.
  intros (a0 & i & r & -> & Hr). exists (mkcmd (sc_name c) (VStr (sc_id c)) (VList (a0 :: sc_ref c :: quoted (sc_name c) :: r))). unfold cmd_dec, item_name, cmd_enc. cbn [vget nth_error bind quoted vstr cm_raw cm_name cm_id]. rewrite quoted_dec, Hr. cbn [vget nth_error bind]. repeat split.
Qed.
Lemma par_through n v : par_is n v -> exists f, par_dec v = (v, Ok f) /\ par_enc f = Ok v /\ pa_name f = n.
Proof. intros (a0 & r & ->). exists (mkpar n (VList (a0 :: quoted n :: r))). unfold par_dec, item_name, par_enc. cbn [vget nth_error bind quoted vstr pa_raw pa_name]. rewrite quoted_dec. repeat split. Qed.
