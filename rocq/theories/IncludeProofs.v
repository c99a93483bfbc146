(** Proofs about Include.v. *)
From Coq Require Import String Permutation.
From Verif Require Import PyBase PyInt Brace Container Spec_Container ContainerProofs Payload UpdateDictProofs MetaObj MetaObjBase EncodeLoop EncodeLoopProofs Types Include Spec_Include.
Set Implicit Arguments.
Open Scope list_scope.
Open Scope N_scope.

Lemma nodup_names_ok l : nodup_names l = true <-> NoDup l.
Proof.
  induction l as [|x l IH]; [split; [constructor|reflexivity]|]. cbn [nodup_names]. rewrite andb_true_iff, IH, negb_true_iff, NoDup_cons_iff. split; intros [A B]; (split; [|exact B]).
  - intros Hin. assert (existsb (str_eqb x) l = true); [|congruence]. apply existsb_exists. exists x. split; [exact Hin|apply str_eqb_refl].
  - destruct (existsb (str_eqb x) l) eqn:E; [|reflexivity]. apply existsb_exists in E. destruct E as (y & Hy & Ey). apply str_eqb_spec in Ey. subst. contradiction.
Qed.
Lemma type_table_names : NoDup (map fst type_table).
Proof. apply nodup_names_ok. vm_compute. reflexivity. Qed.
Lemma type_named_in v t n : type_named v t = Some n -> In (n, v) t.
Proof. induction t as [|[m x] t IH]; [discriminate|]. cbn. destruct (str_eqb v x) eqn:E; [|auto]. apply str_eqb_spec in E. subst. intros H. injection H as ->. auto. Qed.
Lemma type_value_of v n : type_of (VStr v) = Some n -> type_value n = Some v.
Proof.
  intros H. apply type_named_in in H. unfold type_value. pose proof type_table_names as Hn. induction type_table as [|[m x] t IH]; [destruct H|]. cbn [dget]. cbn [map fst] in Hn. apply NoDup_cons_iff in Hn. destruct Hn as [Hx Hn].
  destruct H as [E|H].
  - injection E as -> ->. rewrite str_eqb_refl. reflexivity.
  - destruct (str_eqb n m) eqn:E; [|apply IH; assumption]. apply str_eqb_spec in E. subst. exfalso. apply Hx. apply (in_map fst) in H. exact H.
Qed.

Section P.
Variable Y : Type.
Variable inner : list N -> option (val -> res (list N * Y)).
Variable lower : list N -> list N.
Notation taken := (taken inner).
Notation left_alone := (left_alone inner).

(** the value put in the place of an object *)
Definition after (auto : bool) (o : val) (k : child Y) : val := match k with CFile _ u => VStr u | CInner u _ => if auto then o else VStr u end.
Lemma dec_objs_taken auto t objs ks : Forall2 (taken t) objs ks -> dec_objs auto inner t objs = Ok (map (fun p => after auto (fst p) (snd p)) (combine objs ks), ks).
Proof.
  induction 1 as [|o k objs ks Hk Hr IH]; [reflexivity|]. cbn [dec_objs]. destruct Hk as [u|l f u y Hf Hy]; [rewrite IH; reflexivity|]. rewrite Hf, Hy. cbn [bind]. rewrite IH. reflexivity.
Qed.
Lemma dec_objs_alone auto t objs : Forall (left_alone t) objs -> dec_objs auto inner t objs = Ok (objs, []).
Proof. induction 1 as [|o objs Ho Hr IH]; [reflexivity|]. cbn [dec_objs]. destruct Ho as [->|(l & -> & Hi)]; [|rewrite Hi]; rewrite IH; reflexivity. Qed.


Lemma fill_listed t all objs ks es : Forall2 (taken t) objs ks -> Forall2 (fun o (e : entry val) => snd (snd e) = o) objs es ->
  Forall2 (fun k (e : entry val) => lower (child_uuid k) = lower (fst (snd e))) ks es -> incl es all -> NoDup (map (fun e : entry val => lower (fst (snd e))) all) ->
  fill_objs lower all (map (fun p => after false (fst p) (snd p)) (combine objs ks)) = Ok objs.
Proof.
  intros Ht. revert es. induction Ht as [|o k objs ks Hk Hr IH]; intros es Ho Hu Hi Hn; [reflexivity|].
  inversion Ho as [|? e ? es2 E1 Ho2]; subst. inversion Hu as [|? ? ? ? E2 Hu2]; subst. cbn [combine map fst snd fill_objs].
  assert (L : last_with lower (child_uuid k) all = Some (snd (snd e))).
  { apply (@last_with_in val lower _ _ _ Hn). destruct e as [n [v d]]. exists n, v. split; [apply Hi; left; reflexivity|symmetry; exact E2]. }
  assert (IH2 := IH es2 Ho2 Hu2 (fun x Hx => Hi x (or_intror Hx)) Hn).
  destruct k as [u|u y]; cbn [after child_uuid] in *; rewrite L, IH2; reflexivity.
Qed.
Lemma firstn_all_app {A} (a b : list A) : firstn (length a) (a ++ b) = a.
Proof. rewrite firstn_app, firstn_all, Nat.sub_diag. cbn. apply app_nil_r. Qed.
Lemma skipn_all_app {A} (a b : list A) : skipn (length a) (a ++ b) = b.
Proof. rewrite skipn_app, skipn_all, Nat.sub_diag. reflexivity. Qed.
Lemma len_leb {A} (a b : list A) : (length (a ++ b) <? length a)%nat = false.
Proof. apply Nat.ltb_ge. rewrite app_length. lia. Qed.

(** one group *)
Lemma group_core auto idx g k g' : group_ok g -> regrouped inner lower auto idx g k g' ->
  exists s, dec_slot auto inner (group_val g) = Ok (s, k) /\ vfill_slot lower idx s = Ok (group_val g') /\ (k = [] -> s = group_val g /\ g' = g).
Proof.
  unfold group_ok. intros Hok R. destruct R as [Hu|t Hu Hl Hi|t ks es Hu -> Hne Ht (E1 & E2 & E3 & _) Hp|t ks es es' Hu -> Hne Ht (E1 & E2 & E3 & E4) Hp Hs Ha]; unfold known in Hu.
  - exists (group_val g). split; [|split; [|auto]].
    + unfold dec_slot, group_val. rewrite Hok, Hu. destruct (g_objs g) as [|o os]; [reflexivity|]. reflexivity.
    + unfold vfill_slot, group_val. rewrite Hok, Hu. reflexivity.
  - exists (group_val g). split; [|split; [|auto]].
    + unfold dec_slot, group_val. rewrite Hok, Hu. cbv zeta. rewrite Nat2Z.id, len_leb, firstn_all_app, skipn_all_app, (dec_objs_alone auto Hl). reflexivity.
    + unfold vfill_slot, group_val. rewrite Hok, Hu, Hi. reflexivity.
  - set (os := map (fun p => after false (fst p) (snd p)) (combine (g_objs g) ks)).
    assert (Hlk : length ks = length (g_objs g)) by (clear - Ht; induction Ht; cbn; congruence).
    assert (Hlen : length os = length (g_objs g)) by (unfold os; rewrite map_length, combine_length; lia).
    exists (VList (VStr (g_type g) :: VStr (g_count g) :: os ++ g_more g)). split; [|split].
    + unfold dec_slot, group_val. rewrite Hok, Hu. cbv zeta. rewrite Nat2Z.id, len_leb, firstn_all_app, skipn_all_app, (dec_objs_taken false Ht). cbn [bind]. destruct ks as [|k0 ks0]; [|reflexivity].
      destruct (g_objs g); [congruence|discriminate].
    + unfold vfill_slot. rewrite Hok, Hu.
      assert (Hlie : length es = length (g_objs g)) by (clear - E1; induction E1; cbn; congruence).
      destruct (of_type idx t) as [|e0 l0] eqn:Eo.
      { apply Permutation_nil in Hp. subst es. destruct (g_objs g); [congruence|discriminate]. }
      rewrite <- Eo in *. cbv zeta. rewrite Nat2Z.id, <- Hlen, len_leb, firstn_all_app, skipn_all_app.
      assert (F : fill_objs lower (of_type idx t) os = Ok (g_objs g)).
      { apply (@fill_listed t _ _ _ es Ht E1 E2); [intros x Hx; eapply Permutation_in; [symmetry; exact Hp|exact Hx]|]. eapply Permutation_NoDup; [apply Permutation_map; symmetry; exact Hp|exact E3]. }
      rewrite F. reflexivity.
    + discriminate.
  - exists (VStr t).
    assert (Hlk : length ks = length (g_objs g)) by (clear - Ht; induction Ht; cbn; congruence).
    assert (Hlie : length es = length (g_objs g)) by (clear - E1; induction E1; cbn; congruence).
    split; [|split; [|discriminate]].
    + unfold dec_slot, group_val. rewrite Hok, Hu. cbv zeta. rewrite Nat2Z.id, len_leb, firstn_all_app, skipn_all_app, (dec_objs_taken true Ht). cbn [bind]. destruct ks as [|k0 ks0]; [|reflexivity].
      destruct (g_objs g); [congruence|discriminate].
    + unfold vfill_slot. rewrite (type_value_of _ Hu). cbv zeta.
      assert (Es : sort_names (of_type idx t) = es').
      { assert (N1 : NoDup (map fst (of_type idx t))) by (eapply Permutation_NoDup; [apply Permutation_map; symmetry; exact Hp|exact E4]).
        apply ascending_unique; [|apply sort_names_ascending; exact N1|exact Ha]. unfold sort_names. rewrite <- (sort_by_perm _ (of_type idx t)), Hp. exact Hs. }
      assert (L : length es' = length (g_objs g)) by (rewrite <- Hlie; apply Permutation_length; symmetry; exact Hs).
      rewrite Es. unfold group_val. cbn [g_type g_count g_objs g_more]. rewrite app_nil_r, <- L. reflexivity.
Qed.

Lemma groups_core auto idx gs ks gs' : Forall group_ok gs -> regrouped_all inner lower auto idx gs ks gs' ->
  exists ss, dec_slots auto inner (map group_val gs) = Ok (ss, ks) /\ vfill_slots lower idx ss = Ok (map group_val gs') /\ length ss = length gs /\ (ks = [] -> ss = map group_val gs /\ gs' = gs).
Proof.
  intros Hok H. induction H as [|g k g' gs ks gs' R Hr IH]; [exists []; auto|]. apply Forall_cons_iff in Hok. destruct Hok as [H1 H2].
  destruct (@group_core auto idx g k g' H1 R) as (s & A & B & C). destruct (IH H2) as (ss & D & E & F & G). exists (s :: ss). cbn [map dec_slots]. rewrite A. cbn [bind]. rewrite D. cbn [bind vfill_slots]. rewrite B. cbn [bind]. rewrite E. cbn [bind length].
  split; [reflexivity|]. split; [reflexivity|]. split; [congruence|]. intros Hn. apply app_eq_nil in Hn. destruct Hn as [-> ->]. destruct (C eq_refl) as [-> ->]. destruct (G eq_refl) as [-> ->]. auto.
Qed.

Lemma include_core auto idx a b c gs more ks gs' : list_ok c gs -> regrouped_all inner lower auto idx gs ks gs' -> NoDup (map fst ks) ->
  exists ss, dec_include auto inner (list_val a b c gs more) = Ok (VList (a :: b :: VStr c :: ss ++ more), ks) /\
    vfill_include lower idx (VList (a :: b :: VStr c :: ss ++ more)) = Ok (list_val a b c gs' more) /\ (ks = [] -> ss = map group_val gs /\ gs' = gs) /\ dec_slots auto inner (map group_val gs) = Ok (ss, ks).
Proof.
  intros [Hc Hg] R Hn. destruct (@groups_core auto idx gs ks gs' Hg R) as (ss & A & B & C & D). exists ss. split; [|split; [|split; [exact D|exact A]]].
  - unfold dec_include, list_val. rewrite Hc. cbv zeta. rewrite Nat2Z.id. rewrite <- (map_length group_val gs), len_leb, firstn_all_app, skipn_all_app, A. cbn [bind].
    rewrite (proj2 (nodup_names_ok _) Hn). reflexivity.
  - unfold vfill_include, list_val. rewrite Hc. cbv zeta. rewrite Nat2Z.id, <- C, len_leb, firstn_all_app, skipn_all_app, B. reflexivity.
Qed.
End P.
