(** Basic facts for the elements of managed forms: places, texts, dictionaries. *)
From Coq Require Import Lia Permutation.
From Verif Require Import PyBase PyInt Brace Header CalcOffset Container ContainerToc Pipeline Spec_Pipeline PipelineMore HeaderProofs Spec_Misc MiscProofs MetaObjBase FormCode Payload MetaObj FormElem Spec_FormElem.
Set Implicit Arguments.
Open Scope list_scope.
Open Scope N_scope.

(** ** Places *)
(** the places and types of the specification are those of the program *)
Lemma name_place_is k : name_place k = name_at k. Proof. destruct k; reflexivity. Qed.
Lemma type_id_is k : type_id k = kind_uuid k. Proof. destruct k; reflexivity. Qed.
Lemma prop_place_is k : prop_place k = prop_at k. Proof. destruct k; reflexivity. Qed.
Lemma command_place_is k : command_place k = command_at k. Proof. destruct k; reflexivity. Qed.
Lemma kids_place_is k : kids_place k = kids_at k. Proof. destruct k; reflexivity. Qed.
Lemma calc_walk counters data x post : laid_out counters data -> calc_offset counters (x :: data ++ post) = Ok (zlen data).
Proof.
  intros H. pose proof (calc_offset_walk H (pre := [x]) post ltac:(discriminate)) as Q. unfold calc_offset. cbn [app] in Q.
  change (zlen [x] - 1)%Z with 0%Z in Q. rewrite Q. f_equal. change (zlen [x]) with 1%Z. lia.
Qed.
Lemma zput_mid pre x post v : zput (zlen pre) v (pre ++ x :: post) = Ok (pre ++ v :: post).
Proof.
  unfold zput. pose proof (zlen_nonneg pre). replace (zlen pre <? 0)%Z with false by lia. unfold zlen. rewrite Nat2Z.id. clear.
  induction pre as [|y pre IH]; [reflexivity|]. cbn [length app Header.vset]. rewrite IH. reflexivity.
Qed.
Lemma stands_calc counters v l : stands counters v l -> exists i, forall more, calc_offset counters (l ++ more) = Ok i /\ py_nth (l ++ more) i = Ok v /\ zput i v (l ++ more) = Ok (l ++ more).
Proof.
  intros (x & data & post & -> & Hlo). exists (zlen (data ++ [v])). intros more.
  assert (E : (x :: (data ++ [v]) ++ post) ++ more = (x :: data) ++ v :: (post ++ more)) by (cbn [app]; rewrite <- !app_assoc; reflexivity).
  assert (Ez : zlen (data ++ [v]) = zlen (x :: data)) by (rewrite zlen_app, !zlen_cons, zlen_nil; lia).
  split; [|split].
  - cbn [app]. rewrite <- app_assoc. apply calc_walk, Hlo.
  - rewrite Ez, E. apply py_nth_mid.
  - rewrite Ez, E. apply zput_mid.
Qed.
Lemma laid_last counters k : forall data c v, (0 < k)%Z -> laid_out (counters ++ [(k, 0%Z)]) (data ++ [c]) -> laid_out (counters ++ [(k, 0%Z)]) (data ++ [v]).
Proof.
  induction counters as [|[k0 s0] counters IH]; intros data c v Hk H; cbn [app] in *.
  - inversion H as [|? ? ? seg rest Hs Hr E1 E2]; subst. inversion Hr; subst. rewrite app_nil_r in E2. subst seg. inversion Hs as [? ? Hz|? ? ? ? ? ? H0]; subst; [|contradiction H0; reflexivity].
    rewrite <- (app_nil_r (data ++ [v])). constructor; [|constructor]. constructor. rewrite !zlen_app. reflexivity.
  - inversion H as [|? ? ? seg rest Hs Hr E1 E2]; subst. destruct (@exists_last _ rest) as (rest' & x & ->).
    { intros ->. destruct counters as [|[? ?] ?]; cbn [app] in Hr; inversion Hr as [|? ? ? sg rs Hsg Hrs Ea Eb]; subst; apply app_eq_nil in Eb; destruct Eb; subst.
      - inversion Hsg as [? ? Hz|? ? fi ? ? ? H0 ? ? Ez]; subst; [cbn in Hk; lia|destruct fi; discriminate].
      - clear -Hk Hrs. revert Hrs. induction counters as [|[? ?] cs IHc]; cbn [app]; intros Hrs; inversion Hrs as [|? ? ? sg rs Hsg Hrs2 Ea Eb]; subst; apply app_eq_nil in Eb; destruct Eb; subst.
        + inversion Hsg as [? ? Hz|? ? fi ? ? ? H0 ? ? Ez]; subst; [cbn in Hk; lia|destruct fi; discriminate].
        + apply IHc; assumption. }
    rewrite app_assoc in E2. apply app_inj_tail in E2. destruct E2 as [E2 ->]. subst data. rewrite <- app_assoc. constructor; [exact Hs|]. eapply IH; eassumption.
Qed.
Lemma kids_last k at_ : kids_at k = Some at_ -> exists cs n, at_ = cs ++ [(n, 0%Z)] /\ (0 < n)%Z.
Proof.
  destruct k; intros E; try discriminate; injection E as <-.
  - exists [(3, 1); (1, 1)]%Z, 17%Z. split; [reflexivity|lia].
  - exists [(4, 1); (50, 2)]%Z, 7%Z. split; [reflexivity|lia].
Qed.
Lemma place_calc cs n x data c : (0 < n)%Z -> laid_out (cs ++ [(n, 0%Z)]) (data ++ [c]) -> forall v more, calc_offset (cs ++ [(n, 0%Z)]) ((x :: data) ++ v :: more) = Ok (zlen (x :: data)).
Proof.
  intros Hn Hl v more. pose proof (laid_last cs data c v Hn Hl) as Q. replace ((x :: data) ++ v :: more) with (x :: (data ++ [v]) ++ more) by (cbn [app]; rewrite <- app_assoc; reflexivity).
  rewrite (calc_walk x more Q), zlen_app, !zlen_cons, zlen_nil. f_equal. lia.
Qed.
Lemma var_len_walk counters data m : holds counters data m -> forall pre post, pre <> [] -> var_len (zlen pre - 1) counters (pre ++ data ++ post) = Ok m.
Proof.
  induction 1 as [|k counters items rest n Hk Hh IH|k size counters filler c records rest n Hk Hs Hc Hr Hh IH]; intros pre post Hpre.
  - reflexivity.
  - cbn [var_len]. cbn [Z.eqb]. subst k. specialize (IH (pre ++ items) post). rewrite <- IH by (destruct pre; [congruence|discriminate]). rewrite <- !app_assoc, zlen_app. f_equal. lia.
  - cbn [var_len]. destruct (Z.eqb_spec size 0); [contradiction|]. subst k.
    replace (zlen pre - 1 + (1 + zlen filler))%Z with (zlen (pre ++ filler)) by (rewrite zlen_app; lia).
    assert (E : pre ++ ((filler ++ VStr (str_of_int c) :: records) ++ rest) ++ post = (pre ++ filler) ++ VStr (str_of_int c) :: (records ++ rest ++ post)) by (rewrite <- !app_assoc; cbn [app]; rewrite <- ?app_assoc; reflexivity).
    rewrite E at 1. rewrite py_nth_mid. cbn [bind int_of_val]. rewrite int_of_str_of_int. cbn [bind].
    specialize (IH (pre ++ filler ++ VStr (str_of_int c) :: records) post). 
    replace (var_len (zlen (pre ++ filler) + c * size) counters (pre ++ ((filler ++ VStr (str_of_int c) :: records) ++ rest) ++ post)) with (@Ok Z n); [reflexivity|].
    rewrite <- IH by (destruct pre; [congruence|discriminate]). rewrite <- !app_assoc. cbn [app]. rewrite <- ?app_assoc. f_equal. rewrite !zlen_app, zlen_cons, Hr. lia.
Qed.
Lemma size_checked k l : size_ok k l -> check_size k l = Ok tt.
Proof.
  destruct k; cbn [size_ok check_size]; try reflexivity; intros (n & (x & data & post & m & -> & Hh & ->) & Hf);
  pose proof (var_len_walk Hh (pre := [x]) post ltac:(discriminate)) as Q; change (zlen [x] - 1)%Z with 0%Z in Q; cbn [app] in Q; rewrite Q; cbn [bind].
  - destruct (first_is s_22 (x :: data ++ post)); [|reflexivity]. specialize (Hf eq_refl). cbn [andb]. replace (_ <? 20)%Z with false by lia. reflexivity.
  - destruct (first_is s_55 (x :: data ++ post)); [|reflexivity]. specialize (Hf eq_refl). cbn [andb]. rewrite Hf. reflexivity.
Qed.

(** ** Texts *)
Lemma has_inside p s : has p s = true <-> inside p s.
Proof.
  unfold has. split.
  - destruct (find_sub p s) as [i|] eqn:E; [|discriminate]. intros _. apply find_sub_some in E. destruct E as (t & E & _). exists (firstn i s), t. rewrite <- E. symmetry. apply firstn_skipn.
  - intros (a & b & ->). assert (H : forall a, find_sub p (a ++ p ++ b) <> None).
    { clear. induction a as [|c a IH]; cbn [app].
      - destruct (p ++ b) eqn:E; cbn [find_sub]; rewrite <- E, starts_app; discriminate.
      - cbn [find_sub]. destruct (starts p (c :: a ++ p ++ b)); [discriminate|]. destruct (find_sub p (a ++ p ++ b)); [discriminate|contradiction]. }
    specialize (H a). destruct (find_sub p (a ++ p ++ b)); congruence.
Qed.
Lemma inside_slash p a b : ~ In 47 p -> p <> [] -> inside p (a ++ 47 :: b) -> inside p a \/ inside p b.
Proof.
  intros Hp Hne (x & y & E). 
  assert (G : forall a x, a ++ 47 :: b = x ++ p ++ y -> inside p a \/ inside p b).
  { clear -Hp Hne. induction a as [|c a IH]; intros x E; cbn [app] in E.
    - destruct x as [|d x]; cbn [app] in E.
      + destruct p as [|q p]; [congruence|]. injection E as <- _. exfalso. apply Hp. left. reflexivity.
      + injection E as _ E. right. exists x, y. exact E.
    - destruct x as [|d x]; cbn [app] in E.
      + left. assert (Q : exists t, c :: a = p ++ t).
        { clear -E Hp. change (c :: a ++ 47 :: b) with ((c :: a) ++ 47 :: b) in E. revert E. generalize (c :: a). clear a c. induction p as [|q p IHp]; intros l E; [exists l; reflexivity|].
          destruct l as [|d l]; cbn [app] in E.
          - injection E as <- _. exfalso. apply Hp. left. reflexivity.
          - injection E as <- E. destruct (IHp (fun H => Hp (or_intror H)) l E) as (t & ->). exists t. reflexivity. }
        destruct Q as (t & ->). exists [], t. reflexivity.
      + injection E as <- E. destruct (IH x E) as [(u & v & ->)|H]; [left; exists (c :: u), v; reflexivity|right; exact H]. }
  exact (G a x E).
Qed.
Lemma inside_path p path name : ~ In 47 p -> p <> [] -> ~ inside p path -> ~ inside p name -> ~ inside p (elem_path path name).
Proof. intros Hp Hne H1 H2. destruct path as [|c path]; [exact H2|]. unfold elem_path. cbn [app]. change (c :: path ++ 47 :: name) with ((c :: path) ++ 47 :: name). intros H. apply inside_slash in H; try assumption. tauto. Qed.
Lemma not_starts p s : ~ inside p s -> forall i, starts p (skipn i s) = false.
Proof. intros H i. destruct (starts p (skipn i s)) eqn:E; [|reflexivity]. exfalso. apply H. apply starts_spec in E. destruct E as [t E]. exists (firstn i s), t. rewrite <- E. symmetry. apply firstn_skipn. Qed.
Lemma replace_none pat rep s : ~ inside pat s -> str_replace pat rep s = s.
Proof.
  intros H. unfold str_replace, split_str. rewrite <- (app_nil_r s) at 1. rewrite split_go_nomatch.
  - cbn [split_go prepend join]. rewrite app_nil_r. reflexivity.
  - intros i _. rewrite app_nil_r. apply not_starts, H.
Qed.
Lemma replace_one pat rep a b : pat <> [] -> (forall i, (i < length a)%nat -> starts pat (skipn i a ++ pat ++ b) = false) -> ~ inside pat b -> str_replace pat rep (a ++ pat ++ b) = a ++ rep ++ b.
Proof.
  intros Hne Ha Hb. unfold str_replace, split_str. rewrite split_go_nomatch by exact Ha. rewrite split_go_match by exact Hne. rewrite <- (app_nil_r b) at 1. rewrite split_go_nomatch.
  - cbn [split_go prepend join]. rewrite !app_nil_r. reflexivity.
  - intros i _. rewrite app_nil_r. apply not_starts, Hb.
Qed.
Lemma slash_not : ~ In 47 s_includr. Proof. cbv. intuition discriminate. Qed.
Lemma inside_tail p a b : inside p b -> inside p (a ++ b).
Proof. intros (x & y & ->). exists (a ++ x), y. rewrite app_assoc. reflexivity. Qed.
Lemma inside_head p a b : inside p a -> inside p (a ++ b).
Proof. intros (x & y & ->). exists x, (y ++ b). rewrite <- !app_assoc. reflexivity. Qed.
(** what extraction replaces in a path is what a build replaces at the start of a name *)
Lemma kids_path_eq k path name : has_kids k = true -> ~ inside s_includr path -> renaming_ok k name -> kids_path k path name = elem_path path (shared_name k name) /\ ~ inside s_includr (elem_path path (shared_name k name)).
Proof.
  intros Hk Hp Hr. destruct k; try discriminate; cbn [kids_path shared_name].
  - destruct Hr as [Hn|(_ & r & -> & Hr)].
    + assert (Es : starts s_includr name = false) by (apply (not_starts Hn 0)). rewrite Es.
      assert (Q : ~ inside s_includr (elem_path path name)) by (apply inside_path; [apply slash_not|discriminate|exact Hp|exact Hn]). split; [apply replace_none, Q|exact Q].
    + rewrite starts_app. change (skipn 8 (s_includr ++ r)) with r.
      assert (Hr2 : ~ inside s_includr r) by (intros H; apply Hr, inside_tail, H).
      split; [|apply inside_path; [apply slash_not|discriminate|exact Hp|exact Hr]].
      destruct path as [|c path]; [apply (@replace_one s_includr s_include [] r); [discriminate|cbn; lia|exact Hr2]|].
      unfold elem_path. rewrite !app_assoc. rewrite <- (app_assoc ((c :: path) ++ [47])). rewrite replace_one; [rewrite <- !app_assoc; reflexivity|discriminate| |exact Hr2].
      intros i Hi. destruct (starts s_includr (skipn i ((c :: path) ++ [47]) ++ s_includr ++ r)) eqn:E; [exfalso|reflexivity].
      apply starts_spec in E. destruct E as [t E]. rewrite skipn_app in E.
      destruct (Nat.le_gt_cases (length (c :: path)) i) as [L|L].
      * rewrite (skipn_all2 (n := i) (c :: path)) in E by lia. rewrite app_length in Hi. cbn [length] in Hi, L. replace (i - length (c :: path))%nat with 0%nat in E by (cbn [length]; lia). cbn in E. discriminate.
      * replace (i - length (c :: path))%nat with 0%nat in E by lia. cbn [skipn] in E.
        assert (I : inside s_includr (skipn i (c :: path) ++ 47 :: s_includr ++ r)). { exists [], t. cbn [app]. rewrite <- E. rewrite <- app_assoc. reflexivity. }
        (* the match starts before the slash and has no slash *)
        assert (St : exists u, skipn i (c :: path) = s_includr ++ u).
        { assert (Hn : forall p l m t, ~ In 47 p -> l ++ 47 :: m = p ++ t -> exists u, l = p ++ u).
          { clear. induction p as [|q p IH]; intros l m t Hp E; [exists l; reflexivity|]. destruct l as [|d l]; cbn [app] in E.
            - injection E as <- _. exfalso. apply Hp. left. reflexivity.
            - injection E as <- E. destruct (IH l m t (fun H => Hp (or_intror H)) E) as (u & ->). exists u. reflexivity. }
          rewrite <- app_assoc in E. cbn [app] in E. exact (Hn _ _ _ _ slash_not E). }
        destruct St as (u & St). apply Hp. exists (firstn i (c :: path)), u. rewrite <- St. symmetry. apply firstn_skipn.
  - destruct Hr as [Hn|(H & _)]; [|congruence]. split; [reflexivity|]. apply inside_path; [apply slash_not|discriminate|exact Hp|exact Hn].
Qed.
Lemma back_path_eq k path name : has_kids k = true -> back_path k path name = elem_path path (shared_name k name).
Proof. destruct k; try discriminate; reflexivity. Qed.

(** ** Dictionaries *)
Section D.
Variable V : Type.
Definition dsets (d l : list (list N * V)) : list (list N * V) := fold_left (fun d kv => dset (fst kv) (snd kv) d) l d.
Lemma dset_new k (v : V) d : ~ In k (map fst d) -> dset k v d = d ++ [(k, v)].
Proof.
  induction d as [|[k' v'] d IH]; intros H; [reflexivity|]. cbn [dset map fst] in *. destruct (str_eqb k k') eqn:E; [apply str_eqb_spec in E; subst; exfalso; apply H; left; reflexivity|].
  cbn [app]. rewrite IH; [reflexivity|]. intros Hi. apply H. right. exact Hi.
Qed.
Lemma dsets_new l : forall d, NoDup (map fst (d ++ l)) -> dsets d l = d ++ l.
Proof.
  induction l as [|[k v] l IH]; intros d H; [unfold dsets; cbn; rewrite app_nil_r; reflexivity|].
  unfold dsets. cbn [fold_left fst snd]. fold (dsets (dset k v d) l). rewrite dset_new.
  - rewrite IH; rewrite <- app_assoc; [reflexivity|exact H].
  - rewrite map_app in H. cbn [map fst] in H. apply NoDup_remove_2 in H. intros Hi. apply H. apply in_or_app. left. exact Hi.
Qed.
Lemma dsets_app d a b : dsets d (a ++ b) = dsets (dsets d a) b.
Proof. unfold dsets. apply fold_left_app. Qed.
Lemma dget_perm k (a b : list (list N * V)) : Permutation a b -> NoDup (map fst a) -> dget k a = dget k b.
Proof.
  intros Hp Hn. assert (Hnb : NoDup (map fst b)) by (eapply Permutation_NoDup; [apply Permutation_map, Hp|exact Hn]).
  destruct (dget k a) as [v|] eqn:E.
  - symmetry. apply dget_nodup; [exact Hnb|]. eapply Permutation_in; [exact Hp|]. apply dget_in, E.
  - symmetry. apply dget_none. apply dget_none in E. intros Hi. apply E. unfold dkeys in *. eapply Permutation_in; [apply Permutation_map, Permutation_sym, Hp|exact Hi].
Qed.
Lemma insert_perm (leb : list N * V -> list N * V -> bool) x l : Permutation (insert_by leb x l) (x :: l).
Proof. induction l as [|y l IH]; [apply Permutation_refl|]. cbn [insert_by]. destruct (leb x y); [apply Permutation_refl|]. eapply perm_trans; [apply perm_skip, IH|apply perm_swap]. Qed.
Lemma sort_perm (leb : list N * V -> list N * V -> bool) l : Permutation (sort_by leb l) l.
Proof. induction l as [|x l IH]; [apply Permutation_refl|]. cbn [sort_by]. eapply perm_trans; [apply insert_perm|apply perm_skip, IH]. Qed.
End D.

(** ** Induction on elements *)
Section I.
Variable P : felem -> Prop.
Hypothesis H : forall k n f kids b, Forall P kids -> P (FElem k n f kids b).
Fixpoint felem_ind2 (e : felem) : P e :=
  match e with
  | FElem k n f kids b => H k n f b ((fix go (l : list felem) : Forall P l := match l with [] => Forall_nil P | x :: r => Forall_cons x (felem_ind2 x) (go r) end) kids)
  end.
End I.
