(** Proofs about OrgCode.v: splitting any module text. *)
From Coq Require Import String.
From Verif Require Import PyBase PyInt PyText Paths OrgCode Spec_Code ContainerToc IndexProofs OrgCodeProofs OrgCodePaths OrgCodePack.
Set Implicit Arguments.
Open Scope list_scope.
Open Scope N_scope.

Lemma is_area_opens l k : is_area (strip l) = Some k -> opens_include l = true /\ keyof l = name_on l.
Proof.
  intros H. split; [|reflexivity]. unfold opens_include. change s_include with a_include. change s_includr with a_includr.
  destruct (starts a_include (strip l)) eqn:E1; [reflexivity|]. destruct (starts a_includr (strip l)) eqn:E2; [reflexivity|].
  rewrite is_area_none in H by assumption. discriminate.
Qed.
Lemma is_area_closed l : is_area (strip l) = None -> opens_include l = false.
Proof.
  intros H. unfold opens_include. change s_include with a_include. change s_includr with a_includr.
  destruct (starts a_include (strip l)) eqn:E1; [rewrite is_area_include in H by exact E1; discriminate|].
  destruct (starts a_includr (strip l)) eqn:E2; [rewrite is_area_includr in H by exact E2; discriminate|reflexivity].
Qed.

(** The state of the loop: the current area exists, and the stack of areas is deep enough. *)
Definition named (path : list (list N)) : nat := length (filter (fun p => match p with [] => false | _ => true end) path).
Definition okstate (s : ust) : Prop :=
  (forall k, In k (u_inc s) -> exists v, dget k (u_areas s) = Some v) /\ (named (u_path s) < length (u_inc s))%nat.
Lemma append_cur_cases line s : okstate s -> exists k inc d t, u_inc s = k :: inc /\ dget k (u_areas s) = Some (d, t) /\
  append_cur line s = Ok (mkust (dset k (d ++ line, t) (u_areas s)) (u_path s) (u_inc s)).
Proof.
  intros [H1 H2]. destruct (u_inc s) as [|k inc] eqn:E; [cbn in H2; lia|]. destruct (H1 k (or_introl eq_refl)) as [[d t] Hd].
  exists k, inc, d, t. split; [reflexivity|]. split; [exact Hd|]. rewrite <- E. apply (@append_cur_ok line s k inc d t E Hd).
Qed.
Lemma dset_keeps {V} k (v : V) A x : (exists w, dget x A = Some w) -> exists w, dget x (dset k v A) = Some w.
Proof.
  intros [w Hw]. destruct (str_eq_dec x k) as [->|Hne]; [exists v; apply dget_dset_same|]. exists w. rewrite dget_dset_other by exact Hne. exact Hw.
Qed.

(** One line: which area it goes to and what the state becomes.  [new] is the area it opens. *)
Inductive stepped (line : list N) (s s' : ust) : Prop :=
| stepped_intro (k : list N) (d : list N) (t : option area_kind)
    (Hk : dget k (u_areas s) = Some (d, t))
    (Hs : okstate s')
    (Ha : u_areas s' = match is_area (strip line) with
                       | Some kind => dset (keyof line) ([], Some kind) (dset k (d ++ drop_directive line, t) (u_areas s))
                       | None => dset k (d ++ drop_directive line, t) (u_areas s)
                       end)
    (Hl : (length (u_path s') + (if closes_b line then 1 else 0) = length (u_path s) + (if opens_b line then 1 else 0))%nat).

Lemma line_step line s : okstate s ->
  (closes_b line = true /\ u_path s = [] /\ unpack_line line s = Err IndexError) \/
  (exists s', unpack_line line s = Ok s' /\ stepped line s s').
Proof.
  intros Hok. unfold closes_b. destruct (starts s_area (strip line)) eqn:Eo.
  - right. assert (Hno : starts s_end (strip line) = false).
    { destruct (starts s_end (strip line)) eqn:E; [|reflexivity]. pose proof (@closes_not_opens line E) as H. change a_area with s_area in H. congruence. }
    destruct (append_cur_cases (drop_directive line) Hok) as (k & inc & d & t & Ei & Hd & Ea). destruct Hok as [Hok1 Hok2].
    destruct (is_area (strip line)) as [kind|] eqn:Ek.
    + rewrite (@area_step line kind) by assumption. rewrite Ea. cbn [bind u_areas u_path u_inc]. eexists. split; [reflexivity|].
      eapply stepped_intro with (k := k); [exact Hd| |rewrite Ek; reflexivity|unfold closes_b, opens_b; rewrite Hno, Eo; cbn; lia].
      split; cbn [u_inc u_areas u_path].
      * intros x [<-|Hx]; [eexists; apply dget_dset_same|]. apply dset_keeps, dset_keeps, Hok1. exact Hx.
      * unfold named in *. cbn. destruct (keyof line); cbn; lia.
    + rewrite (@region_step line) by assumption. rewrite Ea. cbn [bind u_areas u_path u_inc]. eexists. split; [reflexivity|].
      eapply stepped_intro with (k := k); [exact Hd| |rewrite Ek; reflexivity|unfold closes_b, opens_b; rewrite Hno, Eo; cbn; lia].
      split; cbn [u_inc u_areas u_path]; [intros x Hx; apply dset_keeps, Hok1; exact Hx|]. unfold named in *. cbn. exact Hok2.
  - assert (Hna : is_area (strip line) = None).
    { destruct (is_area (strip line)) eqn:E; [|reflexivity]. pose proof (is_area_starts _ E) as H. change a_area with s_area in H. congruence. }
    destruct (starts s_end (strip line)) eqn:Ee.
    + destruct (u_path s) as [|top rest] eqn:Ep.
      * left. split; [reflexivity|]. split; [reflexivity|]. unfold unpack_line. destruct (@closes_head line Ee) as [r Er].
        pose proof (@closes_not_opens line Ee) as Hn. rewrite Er in *. rewrite N.eqb_refl, Hn. change a_end with s_end. rewrite Ee, Ep. reflexivity.
      * right. rewrite (@close_step line top rest) by assumption.
        assert (Hinc : exists inc, (match top with [] => Ok (u_inc s) | _ => match u_inc s with [] => Err IndexError | _ :: r => Ok r end end) = Ok inc /\
                   (forall x, In x inc -> In x (u_inc s)) /\ (named rest < length inc)%nat).
        { destruct Hok as [_ H2]. rewrite Ep in H2. destruct top as [|c top]; [exists (u_inc s); auto|]. unfold named in *. cbn in H2.
          destruct (u_inc s) as [|x r] eqn:Ei; [cbn in H2; lia|]. exists r. split; [reflexivity|]. split; [intros y Hy; right; exact Hy|cbn in H2; lia]. }
        destruct Hinc as (inc & -> & Hi1 & Hi2). cbn [bind].
        assert (Hok' : okstate (mkust (u_areas s) rest inc)) by (split; [intros x Hx; apply (proj1 Hok); apply Hi1; exact Hx|exact Hi2]).
        destruct (append_cur_cases (drop_directive line) Hok') as (k & inc' & d & t & Ei & Hd & Ea). rewrite Ea. eexists. split; [reflexivity|].
        eapply stepped_intro with (k := k); [exact Hd| |rewrite Hna; reflexivity|unfold closes_b, opens_b; rewrite Eo, Ee, Ep; cbn; lia].
        split; cbn [u_inc u_areas u_path] in *; [intros x Hx; apply dset_keeps, (proj1 Hok'); exact Hx|exact Hi2].
    + right. rewrite plain_step by (unfold opens, closes; congruence).
      destruct (append_cur_cases (drop_directive line) Hok) as (k & inc & d & t & Ei & Hd & Ea). rewrite Ea. eexists. split; [reflexivity|].
      eapply stepped_intro with (k := k); [exact Hd| |rewrite Hna; reflexivity|unfold closes_b, opens_b; rewrite Eo, Ee; cbn; lia].
      split; cbn [u_inc u_areas u_path]; [intros x Hx; apply dset_keeps, (proj1 Hok); exact Hx|exact (proj2 Hok)].
Qed.

(** ** When splitting fails *)
Lemma closes_opens_b l : closes_b l = true -> opens_b l = false.
Proof. intros H. exact (@closes_not_opens l H). Qed.
Lemma split_ok ls : forall s, okstate s ->
  (exists s', unpack_lines ls s = Ok s') <->
  (forall a b, ls = a ++ b -> (closings a <= openings a + length (u_path s))%nat).
Proof.
  induction ls as [|l ls IH]; intros s Hok.
  - split; [|intros _; exists s; reflexivity]. intros _ a b E. symmetry in E. apply app_eq_nil in E. destruct E as [-> _]. cbn. lia.
  - cbn [unpack_lines]. destruct (line_step l Hok) as [(Hc & Hp & ->)|(s' & -> & Hst)].
    + split; [intros [? ?]; discriminate|]. intros H. exfalso. specialize (H [l] ls eq_refl). unfold closings, openings in H. cbn [filter] in H.
      rewrite Hc, (closes_opens_b _ Hc), Hp in H. cbn in H. lia.
    + destruct Hst as [k d t Hk Hs Ha Hl]. rewrite (IH s' Hs). split; intros H a b E.
      * destruct a as [|x a]; [cbn; lia|]. cbn in E. injection E as <- E. specialize (H a b E). unfold closings, openings in *. cbn [filter].
        destruct (closes_b l), (opens_b l); cbn [length] in *; lia.
      * subst ls. specialize (H (l :: a) b eq_refl). unfold closings, openings in *. cbn [filter] in H.
        destruct (closes_b l), (opens_b l); cbn [length] in *; lia.
Qed.
Lemma start_ok : okstate (mkust [(k_root, ([], None))] [[]] [k_root]).
Proof. split; [intros x [<-|[]]; eexists; reflexivity|cbn; lia]. Qed.
Lemma unpack_lines_err ls : forall s e, unpack_lines ls s = Err e -> e = ExtExc.
Proof. induction ls as [|l ls IH]; intros s e; cbn; [discriminate|]. destruct (unpack_line l s); [apply IH|congruence]. Qed.

(** ** Where the lines go *)
Lemma dset_keys {V} k (v w : V) A : dget k A = Some w -> dkeys (dset k v A) = dkeys A.
Proof.
  unfold dkeys. induction A as [|[k' v'] A IH]; cbn; [discriminate|]. destruct (str_eqb k k') eqn:E; cbn.
  - intros _. apply str_eqb_spec in E. subst. reflexivity.
  - intros H. rewrite IH by exact H. reflexivity.
Qed.
Lemma split_owners ls : forall s s', okstate s -> unpack_lines ls s = Ok s' ->
  NoDup (dkeys (u_areas s) ++ include_names ls) ->
  dkeys (u_areas s') = dkeys (u_areas s) ++ include_names ls /\
  exists owners, length owners = length ls /\ (forall o, In o owners -> In o (dkeys (u_areas s'))) /\
    (forall k d t, dget k (u_areas s) = Some (d, t) -> dget k (u_areas s') = Some (d ++ concat (map drop_directive (given k owners ls)), t)) /\
    (forall k, In k (include_names ls) -> exists t, dget k (u_areas s') = Some (concat (map drop_directive (given k owners ls)), t)).
Proof.
  induction ls as [|l ls IH]; intros s s' Hok; cbn [unpack_lines].
  - intros E _. injection E as <-. split; [cbn; rewrite app_nil_r; reflexivity|]. exists []. split; [reflexivity|]. split; [intros ? []|]. split; [|intros ? []].
    intros k d t H. cbn. rewrite app_nil_r. exact H.
  - intros E Hnd. destruct (line_step l Hok) as [(Hc & Hp & El)|(s1 & El & Hst)]; rewrite El in E; [discriminate|].
    destruct Hst as [k d t Hk Hs Ha Hl].
    assert (Hkin : In k (dkeys (u_areas s))).
    { destruct (in_dec str_eq_dec k (dkeys (u_areas s))) as [H|H]; [exact H|]. apply dget_none in H. congruence. }
    set (A1 := dset k (d ++ drop_directive l, t) (u_areas s)) in *.
    assert (Hg1 : dget k A1 = Some (d ++ drop_directive l, t)) by apply dget_dset_same.
    assert (HK1 : dkeys A1 = dkeys (u_areas s)) by (apply (@dset_keys _ _ _ (d, t)); exact Hk).
    assert (Hother : forall x d0 t0, dget x (u_areas s) = Some (d0, t0) -> dget x A1 = Some (d0 ++ (if str_eqb k x then drop_directive l else []), t0)).
    { intros x d0 t0 Hx. destruct (str_eqb k x) eqn:Ekx.
      - apply str_eqb_spec in Ekx. subst x. rewrite Hk in Hx. injection Hx as <- <-. exact Hg1.
      - unfold A1. rewrite dget_dset_other by (intros ->; rewrite str_eqb_refl in Ekx; discriminate). rewrite app_nil_r. exact Hx. }
    destruct (is_area (strip l)) as [kind|] eqn:Ek.
    + destruct (is_area_opens _ Ek) as [Eoi Ekey]. unfold include_names in Hnd |- *. cbn [filter] in Hnd |- *. rewrite Eoi in Hnd |- *. cbn [map] in Hnd |- *. fold (include_names ls) in *.
      rewrite Ekey in Ha. set (n := name_on l) in *.
      assert (Hfr : dget n A1 = None).
      { apply dget_none. rewrite HK1. apply NoDup_remove_2 in Hnd. intros H. apply Hnd. apply in_or_app. left. exact H. }
      assert (EA : u_areas s1 = A1 ++ [(n, ([], Some kind))]) by (rewrite Ha; apply dset_new; exact Hfr).
      assert (HK : dkeys (u_areas s1) = dkeys (u_areas s) ++ [n]) by (rewrite EA; unfold dkeys in *; rewrite map_app, HK1; reflexivity).
      destruct (IH s1 s' Hs E) as (IK & owners & I1 & I2 & I3 & I4).
      { rewrite HK, <- app_assoc. exact Hnd. }
      rewrite HK, <- app_assoc in IK. split; [exact IK|]. exists (k :: owners). split; [cbn; congruence|]. split; [|split].
      * intros o [<-|Ho]; [rewrite IK; apply in_or_app; left; exact Hkin|apply I2; exact Ho].
      * intros x d0 t0 Hx. cbn [given]. rewrite (I3 x (d0 ++ (if str_eqb k x then drop_directive l else [])) t0).
        -- destruct (str_eqb k x); cbn [map concat]; rewrite <- app_assoc; reflexivity.
        -- rewrite EA. apply dget_app_in. apply Hother. exact Hx.
      * intros x [<-|Hx].
        -- cbn [given]. destruct (str_eqb k n) eqn:Ekn; [apply str_eqb_spec in Ekn; rewrite <- Ekn in Hfr; congruence|].
           exists (Some kind). rewrite (I3 n [] (Some kind)); [reflexivity|]. rewrite EA, dget_app_notin by exact Hfr. cbn. rewrite str_eqb_refl. reflexivity.
        -- cbn [given]. destruct (str_eqb k x) eqn:Ekx; [|apply I4; exact Hx]. exfalso. apply str_eqb_spec in Ekx. subst x.
           apply nodup_app_l in Hnd. destruct Hnd as (_ & _ & Hd). apply (Hd k Hkin). right. exact Hx.
    + pose proof (is_area_closed _ Ek) as Eoi. unfold include_names in Hnd |- *. cbn [filter] in Hnd |- *. rewrite Eoi in Hnd |- *. fold (include_names ls) in *.
      destruct (IH s1 s' Hs E) as (IK & owners & I1 & I2 & I3 & I4).
      { rewrite Ha, HK1. exact Hnd. }
      rewrite Ha, HK1 in IK. split; [exact IK|]. exists (k :: owners). split; [cbn; congruence|]. split; [|split].
      * intros o [<-|Ho]; [rewrite IK; apply in_or_app; left; exact Hkin|apply I2; exact Ho].
      * intros x d0 t0 Hx. cbn [given]. rewrite (I3 x (d0 ++ (if str_eqb k x then drop_directive l else [])) t0).
        -- destruct (str_eqb k x); cbn [map concat]; rewrite <- app_assoc; reflexivity.
        -- rewrite Ha. apply Hother. exact Hx.
      * intros x Hx. cbn [given]. destruct (str_eqb k x) eqn:Ekx; [|apply I4; exact Hx]. exfalso. apply str_eqb_spec in Ekx. subst x.
        apply nodup_app_l in Hnd. destruct Hnd as (_ & _ & Hd). exact (Hd k Hkin Hx).
Qed.

(** ** Well nested modules *)
Lemma own_own_lines table dd here m : well_nested table dd here m -> (forall l, In l (flatten m) -> ~ marked l) -> own m = own_lines m.
Proof.
  induction 1 as [dd here|dd here l rest Hl Hw IH|dd here o body c rest Ho H1 H2 Hc Hmo Hmc Hb IHb Hr IHr|dd here o body c rest w name d Hh Hc Hmo Hmc Hn Hb IHb Hr IHr];
    intros Hm; cbn [own own_lines flatten] in *.
  - reflexivity.
  - rewrite drop_unmarked by (apply Hm; left; reflexivity). rewrite IH; [reflexivity|]. intros x Hx. apply Hm. right. exact Hx.
  - rewrite IHb, IHr; [reflexivity| |]; intros x Hx; apply Hm; right; apply in_or_app; [right; right; exact Hx|left; exact Hx].
  - rewrite IHr; [reflexivity|]. intros x Hx; apply Hm; right; apply in_or_app. right; right; exact Hx.
Qed.
Lemma areas_area_lines table dd here m : well_nested table dd here m -> (forall l, In l (flatten m) -> ~ marked l) ->
  map (fun e => (fst e, fst (snd e))) (areas_of m) = map (fun e => (fst e, concat (snd e))) (area_lines m).
Proof.
  induction 1 as [dd here|dd here l rest Hl Hw IH|dd here o body c rest Ho H1 H2 Hc Hmo Hmc Hb IHb Hr IHr|dd here o body c rest w name d Hh Hc Hmo Hmc Hn Hb IHb Hr IHr];
    intros Hm; cbn [areas_of area_lines flatten map fst snd] in *.
  - reflexivity.
  - apply IH. intros x Hx. apply Hm. right. exact Hx.
  - rewrite !map_app, IHb, IHr; [reflexivity| |]; intros x Hx; apply Hm; right; apply in_or_app; [right; right; exact Hx|left; exact Hx].
  - assert (Hbm : forall l, In l (flatten body) -> ~ marked l) by (intros x Hx; apply Hm; right; apply in_or_app; left; exact Hx).
    rewrite !map_app, IHb, IHr, (own_own_lines Hb Hbm); [reflexivity| |exact Hbm]. intros x Hx; apply Hm; right; apply in_or_app; right; right; exact Hx.
Qed.
