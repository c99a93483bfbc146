From Coq Require Import String.
From Verif Require Import PyBase PyInt Brace BraceMore Header HeaderProofs FormCode Spec_Form.
Open Scope list_scope.
Open Scope N_scope.

Lemma double_cons c s : double (c :: s) = (if c =? QUOTE then [QUOTE; QUOTE] else [c]) ++ double s. Proof. reflexivity. Qed.
Lemma undouble_other c s : c <> QUOTE -> undouble (c :: s) = c :: undouble s.
Proof. intros H. cbn [undouble]. apply N.eqb_neq in H. rewrite H. destruct s; reflexivity. Qed.
Lemma undouble_pair s : undouble (QUOTE :: QUOTE :: s) = QUOTE :: undouble s. Proof. reflexivity. Qed.
Lemma undouble_double s : undouble (double s) = s.
Proof.
  induction s as [|c s IH]; [reflexivity|]. rewrite double_cons. destruct (c =? QUOTE) eqn:E.
  - apply N.eqb_eq in E. subst. cbn [app]. rewrite undouble_pair, IH. reflexivity.
  - apply N.eqb_neq in E. cbn [app]. rewrite undouble_other, IH by exact E. reflexivity.
Qed.
Lemma double_undouble s : paired s -> double (undouble s) = s.
Proof.
  induction 1 as [|c s Hc H IH|s H IH]; [reflexivity| |].
  - rewrite undouble_other, double_cons, IH by exact Hc. apply N.eqb_neq in Hc. unfold QUOTE. rewrite Hc. reflexivity.
  - change (34 :: 34 :: s) with (QUOTE :: QUOTE :: s). rewrite undouble_pair, double_cons, IH. reflexivity.
Qed.
Lemma paired_double s : paired (double s).
Proof. induction s as [|c s IH]; [constructor|]. rewrite double_cons. destruct (c =? QUOTE) eqn:E; cbn [app]; [apply paired_pair; exact IH|apply paired_other; [apply N.eqb_neq in E; exact E|exact IH]]. Qed.
Lemma str_decode_encode s : str_decode (str_encode s) = s.
Proof. unfold str_decode, str_encode. cbn [tl]. apply removelast_last. Qed.
Lemma quoted_encode s : quoted (str_encode (double s)).
Proof. exists (double s). split; [reflexivity|apply paired_double]. Qed.
Lemma quoted_restored raw : quoted raw -> str_encode (double (undouble (str_decode raw))) = raw.
Proof. intros (body & -> & H). change (34 :: body ++ [34]) with (str_encode body). rewrite str_decode_encode, double_undouble by exact H. reflexivity. Qed.

(** ** The innermost list *)
Definition go_last {A} (f : list val -> res (A * list val)) : list val -> list val -> res (A * list val) :=
  fix go (pre l : list val) : res (A * list val) :=
        match l with
        | [] => Err IndexError
        | [x] => match x with
                 | VList _ => ' (a, x') <- on_last f x ;; Ok (a, pre ++ [x'])
                 | _ => f (pre ++ [x])
                 end
        | x :: rest => go (pre ++ [x]) rest
        end.
Lemma on_last_list {A} (f : list val -> res (A * list val)) l : on_last f (VList l) = (' (a, l') <- go_last f [] l ;; Ok (a, VList l')).
Proof. reflexivity. Qed.
Lemma go_last_snoc {A} (f : list val -> res (A * list val)) l x : forall pre,
  go_last f pre (l ++ [x]) = match x with VList _ => ' (a, x') <- on_last f x ;; Ok (a, (pre ++ l) ++ [x']) | _ => f ((pre ++ l) ++ [x]) end.
Proof.
  induction l as [|y l IH]; intros pre; cbn [app].
  - cbn [go_last]. rewrite app_nil_r. reflexivity.
  - specialize (IH (pre ++ [y])). rewrite <- (app_assoc pre [y] l) in IH. cbn [app] in IH. etransitivity; [|exact IH]. destruct l; reflexivity.
Qed.
Lemma on_last_nest {A} (f : list val -> res (A * list val)) ctx pre x : (forall l, x <> VList l) ->
  on_last f (VList (nest ctx (pre ++ [x]))) = (' (a, l') <- f (pre ++ [x]) ;; Ok (a, VList (nest ctx l'))).
Proof.
  intros Hx. induction ctx as [|c ctx IH]; cbn [nest]; rewrite on_last_list, go_last_snoc.
  - destruct x; [reflexivity|reflexivity|destruct (Hx l eq_refl)].
  - cbn [app]. rewrite IH. destruct (f (pre ++ [x])) as [[a l']|]; reflexivity.
Qed.
Lemma nest_decompose l : (exists ctx, l = nest ctx []) \/ exists ctx pre x, l = nest ctx (pre ++ [x]) /\ forall m, x <> VList m.
Proof.
  assert (H : forall v, match v with VList l => (exists ctx, l = nest ctx []) \/ exists ctx pre x, l = nest ctx (pre ++ [x]) /\ forall m, x <> VList m | _ => True end).
  { intros v. induction v as [|s|l0 IH] using val_ind2; [exact I|exact I|]. destruct (rev l0) as [|x r] eqn:E.
    - left. exists []. apply (f_equal (@rev val)) in E. rewrite rev_involutive in E. exact E.
    - apply (f_equal (@rev val)) in E. rewrite rev_involutive in E. cbn [rev] in E. subst l0. rewrite Forall_forall in IH. specialize (IH x ltac:(apply in_or_app; right; left; reflexivity)).
      destruct x as [|s|m].
      + right. exists [], (rev r), VNone. split; [reflexivity|discriminate].
      + right. exists [], (rev r), (VStr s). split; [reflexivity|discriminate].
      + destruct IH as [[ctx ->]|(ctx & pre & y & -> & Hy)]; [left; exists (rev r :: ctx); reflexivity|right; exists (rev r :: ctx), pre, y; split; [reflexivity|exact Hy]]. }
  exact (H (VList l)).
Qed.
Lemma on_last_empty {A} (f : list val -> res (A * list val)) ctx : on_last f (VList (nest ctx [])) = Err IndexError.
Proof.
  induction ctx as [|c ctx IH]; cbn [nest]; [reflexivity|]. rewrite on_last_list, go_last_snoc, IH. reflexivity.
Qed.

(** ** The field *)
Lemma is_in_spec v l : is_in v l = true <-> exists s, v = VStr s /\ In s l.
Proof.
  unfold is_in. rewrite existsb_exists. split.
  - intros (s & Hs & H). destruct v as [|x|]; cbn in H; try discriminate. apply str_eqb_spec in H. subst. exists s. auto.
  - intros (s & -> & Hs). exists s. split; [exact Hs|apply str_eqb_refl].
Qed.
Lemma is_in_str s l : In s l -> is_in (VStr s) l = true.
Proof. intros H. apply is_in_spec. exists s. auto. Qed.
Lemma vset_app pre v x post : vset (length pre) v (pre ++ x :: post) = Ok (pre ++ v :: post).
Proof. induction pre as [|y pre IH]; [reflexivity|]. cbn [length app vset]. rewrite IH. reflexivity. Qed.
Lemma vnth_app pre x post : vnth (length pre) (pre ++ x :: post) = Ok x.
Proof. unfold vnth. rewrite nth_error_app2, Nat.sub_diag by lia. reflexivity. Qed.
Lemma vneg_app k pre x post : S (length post) = k -> vneg k (pre ++ x :: post) = Ok x.
Proof.
  intros <-. unfold vneg. rewrite app_length. cbn [length]. destruct (Nat.ltb_spec (length pre + S (length post)) (S (length post))); [lia|].
  replace (length pre + S (length post) - S (length post))%nat with (length pre) by lia. apply vnth_app.
Qed.

Definition tail8 (s : list N) b5 b4 b3 b2 b1 : list val := [VStr s; b5; b4; b3; b2; b1; VStr t0; VStr t0].
Lemma getset_level_hit short new v mid s b5 b4 b3 b2 b1 : In v [t22; t1] -> (2 <= length mid)%nat ->
  getset_level short new (VStr v :: mid ++ tail8 s b5 b4 b3 b2 b1) = Ok (s, VStr v :: mid ++ tail8 new b5 b4 b3 b2 b1).
Proof.
  intros Hv Hm. unfold getset_level. change (vnth 0 (VStr v :: mid ++ tail8 s b5 b4 b3 b2 b1)) with (Ok (VStr v)). cbn [bind].
  assert (is_in (VStr v) [t49; t4] = false) as -> by (destruct Hv as [<-|[<-|[]]]; reflexivity). rewrite andb_false_r, (is_in_str v [t22; t1] Hv).
  assert ((10 <? length (VStr v :: mid ++ tail8 s b5 b4 b3 b2 b1))%nat = true) as -> by (apply Nat.ltb_lt; cbn [length]; rewrite app_length; cbn [length tail8]; lia). cbn [andb].
  assert (E1 : vneg 1 (VStr v :: mid ++ tail8 s b5 b4 b3 b2 b1) = Ok (VStr t0)) by (change (VStr v :: mid ++ tail8 s b5 b4 b3 b2 b1) with ((VStr v :: mid) ++ [VStr s; b5; b4; b3; b2; b1; VStr t0] ++ [VStr t0]); rewrite app_assoc; apply vneg_app; reflexivity).
  assert (E2 : vneg 2 (VStr v :: mid ++ tail8 s b5 b4 b3 b2 b1) = Ok (VStr t0)) by (change (VStr v :: mid ++ tail8 s b5 b4 b3 b2 b1) with ((VStr v :: mid) ++ [VStr s; b5; b4; b3; b2; b1] ++ [VStr t0; VStr t0]); rewrite app_assoc; apply vneg_app; reflexivity).
  assert (E8 : vneg 8 (VStr v :: mid ++ tail8 s b5 b4 b3 b2 b1) = Ok (VStr s)) by (change (VStr v :: mid ++ tail8 s b5 b4 b3 b2 b1) with ((VStr v :: mid) ++ tail8 s b5 b4 b3 b2 b1); apply vneg_app; reflexivity).
  rewrite E1, E2, E8. cbn [bind]. assert (is_str (VStr t0) t0 = true) as -> by reflexivity. cbn [andb].
  change (VStr v :: mid ++ tail8 s b5 b4 b3 b2 b1) with ((VStr v :: mid) ++ VStr s :: [b5; b4; b3; b2; b1; VStr t0; VStr t0]).
  rewrite app_length. cbn [length]. replace (S (length mid) + 8 - 8)%nat with (length (VStr v :: mid)) by (cbn; lia). rewrite vset_app. reflexivity.
Qed.
Lemma last8 (l : list val) : (10 < length l)%nat -> exists h mid s b5 b4 b3 b2 b1 z2 z1, l = h :: mid ++ [s; b5; b4; b3; b2; b1; z2; z1] /\ (2 <= length mid)%nat.
Proof.
  intros H. destruct l as [|h l]; [cbn in H; lia|]. cbn [length] in H.
  assert (E : l = firstn (length l - 8) l ++ skipn (length l - 8) l) by (symmetry; apply firstn_skipn).
  assert (L : length (skipn (length l - 8) l) = 8%nat) by (rewrite skipn_length; lia).
  destruct (skipn (length l - 8) l) as [|s [|b5 [|b4 [|b3 [|b2 [|b1 [|z2 [|z1 [|? ?]]]]]]]]]; try discriminate L.
  exists h, (firstn (length l - 8) l), s, b5, b4, b3, b2, b1, z2, z1. split; [f_equal; exact E|]. rewrite firstn_length. lia.
Qed.
Lemma getset_level_inv short new l c l' : getset_level short new l = Ok (c, l') ->
  (exists v mid b5 b4 b3 b2 b1, In v [t22; t1] /\ (2 <= length mid)%nat /\ l = VStr v :: mid ++ tail8 c b5 b4 b3 b2 b1 /\ l' = VStr v :: mid ++ tail8 new b5 b4 b3 b2 b1) \/
  (l' = l /\ c = [] /\ forall new', getset_level short new' l = Ok ([], l)).
Proof.
  intros H. pose proof H as H0. unfold getset_level in H |- *. destruct (vnth 0 l) as [h|] eqn:Eh; [|discriminate]. cbn [bind] in *.
  destruct (short && is_in h [t49; t4]); [right; injection H as <- <-; auto|]. destruct ((10 <? length l)%nat && is_in h [t22; t1]) eqn:E; [|right; injection H as <- <-; auto].
  apply andb_true_iff in E. destruct E as [E1 E2]. apply Nat.ltb_lt in E1. apply is_in_spec in E2. destruct E2 as (v & -> & Hv).
  destruct (vneg 1 l) as [a|] eqn:Ea; [|discriminate]. destruct (vneg 2 l) as [b|] eqn:Eb; [|discriminate]. cbn [bind] in *.
  destruct (is_str a t0 && is_str b t0) eqn:Ez; [|right; injection H as <- <-; auto]. left.
  destruct (last8 l E1) as (h & mid & s & b5 & b4 & b3 & b2 & b1 & z2 & z1 & -> & Hm).
  change (h :: mid ++ [s; b5; b4; b3; b2; b1; z2; z1]) with ((h :: mid) ++ [s; b5; b4; b3; b2; b1; z2] ++ [z1]) in Ea. rewrite app_assoc, vneg_app in Ea by reflexivity. injection Ea as <-.
  change (h :: mid ++ [s; b5; b4; b3; b2; b1; z2; z1]) with ((h :: mid) ++ [s; b5; b4; b3; b2; b1] ++ [z2; z1]) in Eb. rewrite app_assoc, vneg_app in Eb by reflexivity. injection Eb as <-.
  cbn in Eh. injection Eh as ->. apply andb_true_iff in Ez. destruct Ez as [Z1 Z2].
  destruct z1 as [|x1|]; cbn in Z1; try discriminate. apply str_eqb_spec in Z1. destruct z2 as [|x2|]; cbn in Z2; try discriminate. apply str_eqb_spec in Z2. subst.
  change (VStr v :: mid ++ [s; b5; b4; b3; b2; b1; VStr t0; VStr t0]) with ((VStr v :: mid) ++ s :: [b5; b4; b3; b2; b1; VStr t0; VStr t0]) in H.
  rewrite (vneg_app 8) in H by reflexivity. cbn [bind] in H. destruct s as [|s|]; try discriminate.
  change ((VStr v :: mid) ++ VStr s :: [b5; b4; b3; b2; b1; VStr t0; VStr t0]) with (VStr v :: mid ++ tail8 s b5 b4 b3 b2 b1) in H.
  pose proof (getset_level_hit short new v mid s b5 b4 b3 b2 b1 Hv Hm) as Hh. change (VStr v :: mid ++ [VStr s; b5; b4; b3; b2; b1; VStr t0; VStr t0]) with (VStr v :: mid ++ tail8 s b5 b4 b3 b2 b1) in H0.
  rewrite Hh in H0. injection H0 as -> <-. exists v, mid, b5, b4, b3, b2, b1. auto.
Qed.

Definition first_kindb (f0 : val) : bool :=
  match f0 with
  | VNone => false
  | VStr s => (2 <? length s)%nat && match s with c :: _ => existsb (str_eqb [c]) [t4; t3; t2] | [] => false end
  | VList l0 => (2 <? length l0)%nat && match l0 with h :: _ => is_in h [t4; t3; t2] | [] => false end
  end.
Lemma first_kind_spec f0 rest : first_kindb f0 = true <-> first_kind (f0 :: rest).
Proof.
  split.
  - destruct f0 as [|s|l]; cbn [first_kindb]; [discriminate| |].
    + destruct s as [|c [|d [|e r]]]; try discriminate. cbn [length]. intros H. apply andb_true_iff in H. destruct H as [_ H]. apply existsb_exists in H. destruct H as (x & Hx & Ex).
      apply str_eqb_spec in Ex. right. exists c, d, e, r, rest. split; [reflexivity|]. rewrite Ex. exact Hx.
    + destruct l as [|h [|a [|b more]]]; try discriminate. intros H. apply andb_true_iff in H. destruct H as [_ H]. apply is_in_spec in H. destruct H as (s & -> & Hs).
      left. exists s, a, b, more, rest. auto.
  - intros [(v & a & b & more & r & E & Hv)|(c & d & e & r & r2 & E & Hv)]; injection E as -> _.
    + cbn [first_kindb length]. change (2 <? S (S (S (length more))))%nat with true. apply is_in_str. exact Hv.
    + cbn [first_kindb length]. change (2 <? S (S (S (length r))))%nat with true. cbn [andb]. apply existsb_exists. exists [c]. split; [exact Hv|apply str_eqb_refl].
Qed.
Definition form_len (f0 : val) : nat := match f0 with VNone => O | VStr s => length s | VList l => length l end.
Lemma getset_later new f0 rest : f0 <> VNone -> first_kindb f0 = false ->
  getset_form_code new (f0 :: rest) = (' (c, v) <- on_last (getset_level (form_len f0 <? 10)%nat new) (VList (f0 :: rest)) ;; l <- vlist v ;; Ok (c, l)).
Proof.
  intros Hn Hk. unfold getset_form_code. change (vnth 0 (f0 :: rest)) with (Ok f0). destruct f0 as [|s|l]; [congruence| |]; cbn [bind first_kindb form_len] in *; rewrite Hk; reflexivity.
Qed.
Lemma getset_place p raw new : place p -> getset_form_code new (p raw) = Ok (raw, p new).
Proof.
  intros H. destruct H as [v a more rest Hv|ctx v mid b5 b4 b3 b2 b1 Hv Hm Hn Hk].
  - unfold getset_form_code. change (vnth 0 (VList (VStr v :: a :: VStr raw :: more) :: rest)) with (Ok (VList (VStr v :: a :: VStr raw :: more))). cbn [bind length].
    change (2 <? S (S (S (length more))))%nat with true. rewrite (is_in_str v [t4; t3; t2] Hv). reflexivity.
  - specialize (Hn raw). specialize (Hk raw). 
    assert (Ep : VStr v :: mid ++ [VStr raw; b5; b4; b3; b2; b1; VStr t0; VStr t0] = (VStr v :: mid ++ [VStr raw; b5; b4; b3; b2; b1; VStr t0]) ++ [VStr t0]) by (cbn [app]; f_equal; rewrite <- app_assoc; reflexivity).
    destruct (nest ctx (VStr v :: mid ++ [VStr raw; b5; b4; b3; b2; b1; VStr t0; VStr t0])) as [|f0 rest] eqn:E.
    { destruct ctx as [|[|? ?] ?]; discriminate E. }
    rewrite getset_later.
    + rewrite <- E, Ep, on_last_nest by discriminate. rewrite <- Ep. fold (tail8 raw b5 b4 b3 b2 b1). rewrite getset_level_hit by assumption. reflexivity.
    + intros ->. apply Hn. reflexivity.
    + destruct (first_kindb f0) eqn:Ef; [|reflexivity]. exfalso. apply Hk. apply first_kind_spec. exact Ef.
Qed.
Definition head_of (l : list val) : val := match l with f :: _ => f | [] => VNone end.
Lemma head_stable ctx v mid b5 b4 b3 b2 b1 s s' :
  let form x := nest ctx (VStr v :: mid ++ [VStr x; b5; b4; b3; b2; b1; VStr t0; VStr t0]) in
  first_kindb (head_of (form s)) = first_kindb (head_of (form s')) /\ (head_of (form s) = VNone <-> head_of (form s') = VNone) /\
  form s <> [] /\ form s' <> [].
Proof.
  destruct ctx as [|[|c0 c] r]; cbn [nest app head_of].
  - repeat split; auto; discriminate.
  - split; [|split; [split; discriminate|split; discriminate]]. cbn [first_kindb]. destruct r as [|[|c1 c2] r2]; cbn [nest app length].
    + rewrite !app_length. reflexivity.
    + reflexivity.
    + rewrite !app_length. reflexivity.
  - repeat split; auto; discriminate.
Qed.
Lemma getset_inv new form c form' : getset_form_code new form = Ok (c, form') ->
  (exists p, place p /\ form = p c /\ form' = p new) \/
  (form' = form /\ c = [] /\ forall new', getset_form_code new' form = Ok ([], form)).
Proof.
  intros H. destruct form as [|f0 rest]; [discriminate|]. destruct (first_kindb f0) eqn:Ek.
  - left. unfold getset_form_code in H. change (vnth 0 (f0 :: rest)) with (Ok f0) in H. cbn [bind] in H. destruct f0 as [|s|l]; [discriminate| |].
    + cbn [first_kindb] in Ek. rewrite Ek in H. discriminate.
    + cbn [first_kindb] in Ek. rewrite Ek in H. destruct l as [|h [|a [|b more]]]; try discriminate Ek. apply andb_true_iff in Ek. destruct Ek as [_ Ek]. apply is_in_spec in Ek. destruct Ek as (v & -> & Hv).
      change (vnth 2 (VStr v :: a :: b :: more)) with (Ok b) in H. cbn [bind] in H. destruct b as [|code|]; try discriminate. cbn [vset bind] in H. injection H as -> <-.
      exists (fun s => VList (VStr v :: a :: VStr s :: more) :: rest). split; [constructor; exact Hv|]. auto.
  - assert (Hn : f0 <> VNone) by (intros ->; discriminate H).
    assert (Hall : forall new', getset_form_code new' (f0 :: rest) = (' (c, v) <- on_last (getset_level (form_len f0 <? 10)%nat new') (VList (f0 :: rest)) ;; l <- vlist v ;; Ok (c, l))) by (intros; apply getset_later; assumption).
    pose proof H as H0. rewrite Hall in H. destruct (nest_decompose (f0 :: rest)) as [[ctx E]|(ctx & pre & x & E & Hx)].
    + rewrite E, on_last_empty in H. discriminate.
    + rewrite E, on_last_nest in H by exact Hx. destruct (getset_level (form_len f0 <? 10)%nat new (pre ++ [x])) as [[c0 l']|] eqn:El; [|discriminate]. cbn [bind vlist] in H. injection H as -> <-.
      destruct (getset_level_inv _ _ _ _ _ El) as [(v & mid & b5 & b4 & b3 & b2 & b1 & Hv & Hm & E1 & E2)|(-> & -> & Hs)].
      * left. exists (fun s => nest ctx (VStr v :: mid ++ [VStr s; b5; b4; b3; b2; b1; VStr t0; VStr t0])).
        assert (Ef : f0 :: rest = nest ctx (VStr v :: mid ++ [VStr c; b5; b4; b3; b2; b1; VStr t0; VStr t0])) by (rewrite E, E1; reflexivity).
        split; [|split; [exact Ef|rewrite E2; reflexivity]]. constructor; [exact Hv|exact Hm| |].
        -- intros s Hs. destruct (head_stable ctx v mid b5 b4 b3 b2 b1 s c) as (_ & Hh & Hne & _). cbn zeta in Hh, Hne. rewrite <- Ef in Hh. apply Hn. apply Hh.
           destruct (nest ctx (VStr v :: mid ++ [VStr s; b5; b4; b3; b2; b1; VStr t0; VStr t0])); [congruence|]. cbn in Hs. injection Hs as ->. reflexivity.
        -- intros s Hs. destruct (head_stable ctx v mid b5 b4 b3 b2 b1 s c) as (Hh & _ & Hne & _). cbn zeta in Hh, Hne. rewrite <- Ef in Hh. cbn [head_of] in Hh. rewrite Ek in Hh.
           destruct (nest ctx (VStr v :: mid ++ [VStr s; b5; b4; b3; b2; b1; VStr t0; VStr t0])) as [|g0 grest]; [congruence|]. cbn [head_of] in Hh. apply first_kind_spec in Hs. congruence.
      * right. split; [symmetry; exact E|]. split; [reflexivity|]. intros new'. rewrite Hall. rewrite E at 1. rewrite on_last_nest by exact Hx. rewrite Hs. cbn [bind vlist]. rewrite <- E. reflexivity.
Qed.
