(** The lists of included objects of a root (Root.v). *)
From Coq Require Import String Permutation.
From Verif Require Import PyBase PyInt PyText Utf Brace Spec_Brace BraceMore JsonText JsonTextProofs JsonObj Header Pipeline Spec_Stage ObjCode Spec_Obj Payload PayloadProofs MetaObj Spec_MetaObj MetaObjBase MetaObjGood MetaObjMain ClassesProofs UpdateDictProofs
  Container ContainerProofs Spec_Container EncodeLoop EncodeLoopProofs Spec_Encode EncodeLoopMain Types Include Spec_Include IncludeProofs IncludeMain Tree Spec_Tree TreeProofs TreeBuild Classes MetaObj Real Spec_Real RealProofs RealMain Root Spec_Root.
Set Implicit Arguments.
Open Scope list_scope.
Open Scope N_scope.

(** a list with other elements in place of the groups *)
Definition inc_with (i : inc) (ss : list val) : val := VList (n_a i :: n_b i :: VStr (n_count i) :: ss ++ n_more i).
Lemma inc_with_val i : inc_with i (map group_val (n_gs i)) = inc_val i.
Proof. reflexivity. Qed.
Definition put_inc (g : mgroup) (v : val) : val := VList (VStr (m_id g) :: match m_wrap g with None => v | Some w => VList (VStr s_six :: v :: w) end :: m_rest g).
Definition mval (p : mgroup * list val) : val := put_inc (fst p) (inc_with (m_inc (fst p)) (snd p)).
Definition plain_pair (g : mgroup) : mgroup * list val := (g, map group_val (n_gs (m_inc g))).
Lemma mval_plain g : mval (plain_pair g) = mgroup_val g.
Proof. reflexivity. Qed.

Lemma group_known_in id : In id group_ids -> group_known (VStr id) = true.
Proof. intros H. unfold group_known. apply existsb_exists. exists id. split; [exact H|apply str_eqb_refl]. Qed.
Lemma in_group_ok (A : Type) (f : val -> res (val * A)) g ss ss' x : In (m_id g) group_ids -> (m_wrap g = None -> n_a (m_inc g) <> VStr s_six) ->
  f (inc_with (m_inc g) ss) = Ok (inc_with (m_inc g) ss', x) -> in_group f (mval (g, ss)) = Ok (mval (g, ss'), x).
Proof.
  intros Hid Hw Hf. unfold in_group, mval, put_inc. cbn [fst snd]. cbn [vget nth_error bind vat]. rewrite (@group_known_in _ Hid). destruct (m_wrap g) as [w|].
  - cbn [vat vget nth_error bind]. change (str_eqb s_six s_six) with true. cbn [vat vget nth_error bind]. rewrite Hf. reflexivity.
  - specialize (Hw eq_refl). unfold inc_with at 1. cbn [vat vget nth_error bind].
    assert (K : match n_a (m_inc g) with VStr s => if str_eqb s s_six then [1%nat; 1%nat] else [1%nat] | _ => [1%nat] end = [1%nat]).
    { destruct (n_a (m_inc g)) as [|s|]; try reflexivity. destruct (str_eqb s s_six) eqn:E; [|reflexivity]. apply str_eqb_spec in E. congruence. }
    rewrite K. cbn [vat vget nth_error bind]. rewrite Hf. cbn [bind vput vget nth_error Payload.vset set_nth]. reflexivity.
Qed.
Lemma in_groups_ok (A : Type) (f : val -> res (val * A)) : forall (ps : list (mgroup * list val)) (rs : list (list val * A)),
  Forall2 (fun p r => mgroup_ok (fst p) /\ f (inc_with (m_inc (fst p)) (snd p)) = Ok (inc_with (m_inc (fst p)) (fst r), snd r)) ps rs ->
  in_groups f (map mval ps) = Ok (map mval (combine (map fst ps) (map fst rs)), map snd rs).
Proof.
  intros ps rs H. induction H as [|[g ss] [ss' x] ps rs [(H1 & _ & H2) Hf] Hr IH]; [reflexivity|]. cbn [map in_groups combine fst snd]. cbn [fst snd] in *. rewrite (@in_group_ok A f g ss ss' x H1 H2 Hf). cbn [bind]. rewrite IH. reflexivity.
Qed.
Definition tree_with (r0 r1 : val) (count : list N) (ps : list (mgroup * list val)) (more rest : list val) : val := VList (VList (r0 :: r1 :: VStr count :: map mval ps ++ more) :: rest).
Lemma tree_with_plain r0 r1 count ms more rest : tree_with r0 r1 count (map plain_pair ms) more rest = VList (groups_tree r0 r1 count ms more rest).
Proof. unfold tree_with, groups_tree. rewrite map_map. reflexivity. Qed.
Lemma combine_fst {A B C} (ps : list (A * B)) (rs : list C) : length ps = length rs -> map fst (combine (map fst ps) rs) = map fst ps.
Proof. revert rs. induction ps as [|p ps IH]; intros [|r rs] H; try discriminate; [reflexivity|]. cbn [map combine fst]. rewrite IH by (cbn in H; lia). reflexivity. Qed.
Lemma in_root_ok (A : Type) (f : val -> res (val * A)) r0 r1 count (ps : list (mgroup * list val)) (rs : list (list val * A)) more rest :
  int_of_str count = Ok (Z.of_nat (length ps)) ->
  Forall2 (fun p r => mgroup_ok (fst p) /\ f (inc_with (m_inc (fst p)) (snd p)) = Ok (inc_with (m_inc (fst p)) (fst r), snd r)) ps rs ->
  in_root f (tree_with r0 r1 count ps more rest) = Ok (tree_with r0 r1 count (combine (map fst ps) (map fst rs)) more rest, map snd rs).
Proof.
  intros Hc H. unfold in_root, tree_with. cbn [vget nth_error bind]. rewrite Hc. cbn [bind]. cbv zeta. rewrite Nat2Z.id. rewrite <- (map_length mval ps), len_leb, firstn_all_app, skipn_all_app, (@in_groups_ok A f ps rs H). reflexivity.
Qed.

(** ** Extraction without auto_include changes nothing when all objects have files of their own *)
Section Same.
Variable Y : Type.
Variable inner : list N -> option (val -> res (list N * Y)).
Definition all_files_kids (ks : list (child Y)) : Prop := forall k, In k ks -> exists u, k = CFile _ u.
Lemma dec_objs_same t objs : forall objs' ks, dec_objs false inner t objs = Ok (objs', ks) -> all_files_kids ks -> objs' = objs.
Proof.
  induction objs as [|o objs IH]; intros objs' ks H Hk; [injection H as <- <-; reflexivity|]. cbn [dec_objs] in H. destruct o as [|s|l].
  - destruct (dec_objs false inner t objs) as [[os ks2]|]; [|discriminate]. injection H as <- <-. f_equal. eapply IH; [reflexivity|exact Hk].
  - destruct (dec_objs false inner t objs) as [[os ks2]|]; [|discriminate]. injection H as <- <-. f_equal. eapply IH; [reflexivity|]. intros k Hi. apply Hk. right. exact Hi.
  - destruct (inner t) as [f|].
    + destruct (f (VList l)) as [[u y]|]; [|discriminate]. cbn [bind] in H. destruct (dec_objs false inner t objs) as [[os ks2]|]; [|discriminate]. injection H as <- <-. destruct (Hk (CInner u y) (or_introl eq_refl)) as [v E]. discriminate.
    + destruct (dec_objs false inner t objs) as [[os ks2]|]; [|discriminate]. injection H as <- <-. f_equal. eapply IH; [reflexivity|exact Hk].
Qed.
Lemma dec_slot_same s s' kss : dec_slot false inner s = Ok (s', kss) -> (forall g, In g kss -> all_files_kids (snd g)) -> s' = s.
Proof.
  destruct s as [| |[|ty [|[|c|] rest]]]; try discriminate. unfold dec_slot. destruct (int_of_str c) as [n|]; [|discriminate]. destruct (type_of ty) as [t|].
  - cbv zeta. destruct (length rest <? Z.to_nat n)%nat; [discriminate|]. destruct (dec_objs false inner t (firstn (Z.to_nat n) rest)) as [[os ks]|] eqn:E; [|discriminate]. cbn [bind]. intros H Hk.
    assert (os = firstn (Z.to_nat n) rest) as ->.
    { eapply dec_objs_same; [exact E|]. destruct ks as [|k ks]; [intros k []|]. injection H as _ <-. apply (Hk (t, k :: ks)). left. reflexivity. }
    rewrite firstn_skipn in H. destruct ks; injection H as <- _; reflexivity.
  - destruct (n =? 0)%Z; [intros H _; injection H as <- _; reflexivity|]. destruct rest; [discriminate|]. intros H _; injection H as <- _; reflexivity.
Qed.
Lemma dec_slots_same ss : forall ss' kss, dec_slots false inner ss = Ok (ss', kss) -> (forall g, In g kss -> all_files_kids (snd g)) -> ss' = ss.
Proof.
  induction ss as [|s ss IH]; intros ss' kss H Hk; [injection H as <- <-; reflexivity|]. cbn [dec_slots] in H. destruct (dec_slot false inner s) as [[s2 k]|] eqn:E; [|discriminate]. cbn [bind] in H.
  destruct (dec_slots false inner ss) as [[r ks]|]; [|discriminate]. injection H as <- <-. f_equal; [eapply dec_slot_same; [exact E|]|eapply IH; [reflexivity|]]; intros g Hg; apply Hk; apply in_or_app; auto.
Qed.
End Same.

Section R.
Variable os : platform.
Variable alnum : N -> bool.
Variable valid : list N -> bool.
Variable lower : list N -> list N.
Variable auto : bool.
Variable src : folder.
Notation inner := (inner_of os alnum valid src).
Notation object := (object folder written).
Notation made := (made os alnum valid src).
Notation listed := (listed os alnum valid auto src).
Notation kid_groups := (list (list N * list (child (list N * folder)))).
Definition flat_kids (kss : kid_groups) := flat_map (fun g : list N * list (child (list N * folder)) => map (pair (fst g)) (snd g)) kss.

Lemma nodup_join {A} (a b : list A) : NoDup a -> NoDup b -> (forall x, In x a -> In x b -> False) -> NoDup (a ++ b).
Proof.
  intros Ha Hb. induction Ha as [|x a Hx Ha IH]; intros H; [exact Hb|]. cbn [app]. constructor; [|apply IH; intros y Hy; apply H; right; exact Hy].
  intros Hi. apply in_app_or in Hi. destruct Hi as [Hi|Hi]; [exact (Hx Hi)|]. apply (H x); [left; reflexivity|exact Hi].
Qed.
Lemma listed_split a : forall b xs, listed (a ++ b) xs -> exists xa xb, xs = xa ++ xb /\ listed a xa /\ listed b xb.
Proof.
  induction a as [|g a IH]; intros b xs H; [exists [], xs; split; [reflexivity|split; [constructor|exact H]]|]. cbn [app] in H.
  inversion H as [|g0 gs0 xs0 Hk Hr|g0 t gs0 xs0 Hk Ha Hr|g0 t os1 gs0 xs0 Hk Hne Ht Ho Hau Hr]; subst; destruct (IH _ _ Hr) as (xa & xb & -> & A & B).
  - exists xa, xb. split; [reflexivity|]. split; [apply ls_unknown; assumption|exact B].
  - exists xa, xb. split; [reflexivity|]. split; [eapply ls_alone; eassumption|exact B].
  - exists (os1 ++ xa), xb. split; [apply app_assoc|]. split; [eapply ls_objects; eassumption|exact B].
Qed.
Lemma nodup_filter_app {A B} (f : A -> B) q (a b : list A) : NoDup (map f (filter q (a ++ b))) -> NoDup (map f (filter q a)) /\ NoDup (map f (filter q b)).
Proof. rewrite filter_app, map_app. intros H. apply nodup_app in H. tauto. Qed.
Lemma different_app a b : different lower (a ++ b) -> different lower a /\ different lower b.
Proof.
  intros [D1 D2]. rewrite map_app in D1. apply nodup_app in D1. destruct D1 as (A & B & _). split; (split; [assumption|]); intros t; specialize (D2 t); apply nodup_filter_app in D2; apply D2.
Qed.
Lemma listed_lists : forall incs xs (os' : list object), listed (flat_map n_gs incs) xs -> types_once (flat_map n_gs incs) -> Forall2 made xs os' -> different lower xs -> Forall inc_ok incs ->
  exists rs : list (list val * kid_groups),
    Forall2 (fun i r => dec_include auto inner (inc_val i) = Ok (inc_with i (fst r), snd r) /\ dec_slots auto inner (map group_val (n_gs i)) = Ok r /\ (snd r = [] -> fst r = map group_val (n_gs i))) incs rs /\
    flat_kids (concat (map snd rs)) = map (@child_of _ _) os' /\ NoDup (map fst (concat (map snd rs))) /\ incl (map fst (concat (map snd rs))) (types_of (flat_map n_gs incs)) /\
    forall idx, (forall t, In t (types_of (flat_map n_gs incs)) -> Permutation (of_type idx t) (it_entries t xs)) -> Forall2 (fun i r => vfill_include lower idx (inc_with i (fst r)) = Ok (inc_val i)) incs rs.
Proof.
  induction incs as [|i incs IH]; intros xs os' Hl Ht Hm Hd Hok.
  - cbn [flat_map] in Hl. inversion Hl; subst. inversion Hm; subst. exists []. split; [constructor|]. split; [reflexivity|]. split; [constructor|]. split; [intros ? []|]. intros idx _. constructor.
  - cbn [flat_map] in Hl, Ht. destruct (@listed_split _ _ _ Hl) as (xa & xb & -> & La & Lb). apply Forall2_app_inv_l in Hm. destruct Hm as (oa & ob & Ma & Mb & ->).
    destruct (different_app _ _ Hd) as [Da Db]. apply Forall_cons_iff in Hok. destruct Hok as [Hi Hok].
    unfold types_once in Ht. rewrite flat_map_app in Ht. apply nodup_app in Ht. destruct Ht as (Ta & Tb & Tab).
    destruct (@groups_listed os alnum valid lower auto src (n_gs i) xa La oa Ta Ma Da) as (kss & K1 & K2 & K3 & K4).
    destruct (IH xb ob Lb Tb Mb Db Hok) as (rs & R1 & R2 & R3 & R4 & R5).
    assert (Ea : forall t, In t (types_of (n_gs i)) -> it_entries t (xa ++ xb) = it_entries t xa).
    { intros t Hin. rewrite it_entries_app, (@it_entries_none t xb), app_nil_r; [reflexivity|]. intros x Hx E. apply (Tab t Hin). rewrite <- E. eapply listed_types; eassumption. }
    assert (Eb : forall t, In t (types_of (flat_map n_gs incs)) -> it_entries t (xa ++ xb) = it_entries t xb).
    { intros t Hin. rewrite it_entries_app, (@it_entries_none t xa); [reflexivity|]. intros x Hx E. apply (Tab t); [|exact Hin]. rewrite <- E. eapply listed_types; eassumption. }
    set (idx0 := EncodeLoopMain.group (map (@kid_of folder written) oa)).
    assert (Hi0 : forall t, In t (types_of (n_gs i)) -> Permutation (of_type idx0 t) (it_entries t xa)).
    { intros t _. unfold idx0. rewrite of_group, sel_entries, (entries_made t Ma). apply Permutation_refl. }
    destruct (@include_core _ inner lower auto idx0 (n_a i) (n_b i) (n_count i) (n_gs i) (n_more i) kss (n_gs i) Hi (K4 idx0 Hi0) K2) as (ss & I1 & I2 & I3 & I4).
    exists ((ss, kss) :: rs). split; [constructor; [|exact R1]|].
    { cbn [fst snd]. split; [exact I1|]. split; [exact I4|]. intros E. apply (I3 E). }
    split. { cbn [map concat snd]. unfold flat_kids in *. rewrite flat_map_app, K1, R2, map_app. reflexivity. }
    split.
    { cbn [map concat snd]. rewrite map_app. apply nodup_join; [exact K2|exact R3|]. intros t Hin1 Hin2. apply (Tab t); [apply K3; exact Hin1|apply R4; exact Hin2]. }
    split. { cbn [map concat snd flat_map]. rewrite map_app. unfold types_of. rewrite flat_map_app. intros t Hin. apply in_app_or in Hin. apply in_or_app. destruct Hin; [left; apply K3|right; apply R4]; assumption. }
    intros idx Hx. constructor.
    + cbn [fst]. assert (Hx1 : forall t, In t (types_of (n_gs i)) -> Permutation (of_type idx t) (it_entries t xa)).
      { intros t Hin. rewrite <- (Ea t Hin). apply Hx. cbn [flat_map]. unfold types_of. rewrite flat_map_app. apply in_or_app. left. exact Hin. }
      destruct (@include_core _ inner lower auto idx (n_a i) (n_b i) (n_count i) (n_gs i) (n_more i) kss (n_gs i) Hi (K4 idx Hx1) K2) as (ss2 & J1 & J2 & J3 & J4).
      assert (ss2 = ss) as -> by congruence. exact J2.
    + apply R5. intros t Hin. rewrite <- (Eb t Hin). apply Hx. cbn [flat_map]. unfold types_of. rewrite flat_map_app. apply in_or_app. right. exact Hin.
Qed.
End R.
