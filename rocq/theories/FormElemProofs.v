(** The elements of managed forms: what extraction keeps and a build puts back. *)
From Coq Require Import Lia Permutation.
From Verif Require Import PyBase PyInt Brace Header CalcOffset Container HeaderProofs Spec_Misc MiscProofs MetaObjBase FormCode Payload MetaObj FormElem Spec_FormElem FormElemBase.
Set Implicit Arguments.
Open Scope list_scope.
Open Scope N_scope.

Lemma number_int n : int_of_val (number n) = Ok (Z.of_nat n).
Proof. cbn [int_of_val number]. apply int_of_str_of_int. Qed.
Lemma number_mark n : is_str (number n) kids_mark = false.
Proof.
  cbn [is_str number]. destruct (str_eqb (str_of_int (Z.of_nat n)) kids_mark) eqn:E; [|reflexivity]. apply str_eqb_spec in E. pose proof (int_of_str_of_int (Z.of_nat n)) as H. rewrite E in H. vm_compute in H. discriminate.
Qed.
Lemma kind_uuid_known k : kind_by kind_uuid (kind_uuid k) = Some k.
Proof. destruct k; reflexivity. Qed.
Lemma quoted_dec n : str_decode (34 :: n ++ [34]) = n.
Proof. unfold str_decode. cbn [tl]. apply removelast_last. Qed.

(** ** Indexes of a form *)
Definition col_index (p : sprop) : list (list N * pnode) := map (fun c : list N * list N => (snd c, PN (fst c) [])) (sp_cols p).
Definition prop_index (props : list sprop) : list (list N * pnode) := map (fun p => (sp_id p, PN (sp_name p) (col_index p))) props.
Definition cmd_index (cmds : list scmd) : list (list N * list N) := map (fun c => (sc_id c, sc_name c)) cmds.
Definition prop_names (props : list sprop) : list (list N * (val * option val)) :=
  flat_map (fun p => (sp_name p, (VStr (sp_id p), None)) :: map (fun c : list N * list N => (sp_name p ++ [46] ++ fst c, (VStr (sp_id p), Some (VStr (snd c))))) (sp_cols p)) props.
Definition cmd_names (cmds : list scmd) : list (list N * val) := map (fun c => (sc_name c, sc_ref c)) cmds.

Section S.
Variable props : list sprop.
Variable cmds : list scmd.
Hypothesis ids_once : NoDup (map sp_id props).
Hypothesis cols_once : Forall (fun p => NoDup (map snd (sp_cols p))) props.
Hypothesis cids_once : NoDup (map sc_id cmds).
Hypothesis names_once : NoDup (dotted_names props).
Hypothesis ids_some : Forall (fun n => n <> []) (map sp_id props).
Hypothesis cnames_once : NoDup (map sc_name cmds).
Notation pidx := (prop_index props).
Notation cidx := (cmd_index cmds).
Notation pnames := (prop_names props).
Notation cnames := (cmd_names cmds).

Lemma pidx_known p : In p props -> dget (sp_id p) pidx = Some (PN (sp_name p) (col_index p)).
Proof.
  intros H. apply dget_nodup; [unfold dkeys, prop_index; rewrite map_map; cbn [fst]; exact ids_once|]. unfold prop_index. apply in_map_iff. exists p. auto.
Qed.
Lemma pidx_unknown id : ~ In id (map sp_id props) -> dget id pidx = None.
Proof. intros H. apply dget_none. unfold dkeys, prop_index. rewrite map_map. cbn [fst]. exact H. Qed.
Lemma col_known p c : In p props -> In c (sp_cols p) -> dget (snd c) (col_index p) = Some (PN (fst c) []).
Proof.
  intros Hp Hc. rewrite Forall_forall in cols_once. apply dget_nodup; [unfold dkeys, col_index; rewrite map_map; cbn [fst]; apply cols_once, Hp|]. unfold col_index. apply in_map_iff. exists c. auto.
Qed.
Lemma col_unknown p id : ~ In id (map snd (sp_cols p)) -> dget id (col_index p) = None.
Proof. intros H. apply dget_none. unfold dkeys, col_index. rewrite map_map. cbn [fst]. exact H. Qed.
Lemma pnames_keys : map fst pnames = dotted_names props.
Proof. unfold prop_names, dotted_names. clear. induction props as [|p l IH]; [reflexivity|]. cbn [flat_map]. rewrite map_app, IH. cbn [map fst]. rewrite map_map. reflexivity. Qed.
Lemma pnames_prop p : In p props -> dget (sp_name p) pnames = Some (VStr (sp_id p), None).
Proof. intros H. apply dget_nodup; [unfold dkeys; rewrite pnames_keys; exact names_once|]. unfold prop_names. apply in_flat_map. exists p. split; [exact H|left; reflexivity]. Qed.
Lemma pnames_col p c : In p props -> In c (sp_cols p) -> dget (sp_name p ++ [46] ++ fst c) pnames = Some (VStr (sp_id p), Some (VStr (snd c))).
Proof.
  intros H Hc. apply dget_nodup; [unfold dkeys; rewrite pnames_keys; exact names_once|]. unfold prop_names. apply in_flat_map. exists p. split; [exact H|right]. apply in_map_iff. exists c. auto.
Qed.
Lemma cidx_known c : In c cmds -> dget (sc_id c) cidx = Some (sc_name c).
Proof. intros H. apply dget_nodup; [unfold dkeys, cmd_index; rewrite map_map; cbn [fst]; exact cids_once|]. unfold cmd_index. apply in_map_iff. exists c. auto. Qed.
Lemma cidx_found id n : dget id cidx = Some n -> exists c, In c cmds /\ sc_id c = id /\ sc_name c = n.
Proof. intros H. apply dget_in in H. unfold cmd_index in H. apply in_map_iff in H. destruct H as (c & E & H). injection E as <- <-. exists c. auto. Qed.
Lemma cnames_known c : In c cmds -> dget (sc_name c) cnames = Some (sc_ref c).
Proof. intros H. apply dget_nodup; [unfold dkeys, cmd_names; rewrite map_map; cbn [fst]; exact cnames_once|]. unfold cmd_names. apply in_map_iff. exists c. auto. Qed.

(** ** Links *)
Lemma links_ok n : forall i l h idx, (i + n <= length l)%nat -> Forall (fun x => exists id r, x = VList (VStr id :: r)) (firstn (i + n) l) -> exists r, link_names n i (VList (h :: l)) idx = Ok r.
Proof.
  induction n as [|n IH]; intros i l h idx Hl Hf; [eexists; reflexivity|]. cbn [link_names vget].
  destruct (nth_error l i) as [x|] eqn:E; [|apply nth_error_None in E; lia]. cbn [nth_error]. rewrite E. cbn [bind].
  assert (Hx : exists id r, x = VList (VStr id :: r)).
  { rewrite Forall_forall in Hf. apply Hf. assert (Q : nth_error (firstn (i + S n) l) i = Some x). { rewrite <- E. clear -n. revert l. induction i as [|i IHi]; intros [|y l]; cbn; try reflexivity. apply IHi. } eapply nth_error_In, Q. }
  destruct Hx as (id & r & ->). cbn [vget nth_error bind id_str]. destruct (dget id idx) as [[name kids]|]; [|eexists; reflexivity].
  destruct (IH (S i) l h kids) as [r' ->]; [lia|replace (S i + n)%nat with (i + S n)%nat by lia; exact Hf|]. eexists. reflexivity.
Qed.
Definition plink (e : felem) : option (list N) := match prop_of pidx (fe_kind e) (fe_front e) with Ok p => p | Err _ => None end.
Definition clink (e : felem) : option (list N) := match cmd_of cidx (fe_kind e) (fe_front e) with Ok p => p | Err _ => None end.

Lemma prop_value link : link_fine link -> exists r, (if truthy link then h <- vget link 0 ;; n <- int_of_val h ;; ns <- link_names (Z.to_nat n) 0 link pidx ;;
         Ok (match ns with Some ns => some_str (join [46] ns) | None => None end) else Ok None) = Ok r.
Proof.
  intros [->|(n & l & -> & Hl & Hf)]; [eexists; reflexivity|]. cbn [truthy length Nat.eqb negb vget nth_error bind]. rewrite number_int. cbn [bind]. rewrite Nat2Z.id.
  destruct (links_ok n 0 l (number n) pidx Hl Hf) as [r ->]. eexists. reflexivity.
Qed.
Lemma prop_of_front path e : elem_ok props cmds path e -> forall more, prop_of pidx (fe_kind e) (fe_front e ++ more) = Ok (plink e).
Proof.
  intros He more. unfold plink, prop_of. destruct (prop_at (fe_kind e)) as [at_|] eqn:E; [|reflexivity].
  destruct (eo_prop He (eq_trans (prop_place_is _) E)) as (link & Hst & Hf & _). destruct (stands_calc Hst) as (i & Hi). destruct (Hi more) as (C1 & C2 & _). destruct (Hi []) as (D1 & D2 & _). rewrite app_nil_r in D1, D2.
  rewrite C1, D1. cbn [bind]. rewrite C2, D2. cbn [bind]. destruct (prop_value Hf) as [r ->]. reflexivity.
Qed.
Lemma cmd_of_front path e : elem_ok props cmds path e -> forall more, cmd_of cidx (fe_kind e) (fe_front e ++ more) = Ok (clink e).
Proof.
  intros He more. unfold clink, cmd_of. destruct (command_at (fe_kind e)) as [at_|] eqn:E; [|reflexivity].
  destruct (eo_cmd He (eq_trans (command_place_is _) E)) as (link & Hst & Hf & _). destruct (stands_calc Hst) as (i & Hi). destruct (Hi more) as (C1 & C2 & _). destruct (Hi []) as (D1 & D2 & _). rewrite app_nil_r in D1, D2.
  rewrite C1, D1. cbn [bind]. rewrite C2, D2. cbn [bind]. destruct Hf as [->|(id & n & l & -> & Hn)]; [reflexivity|]. cbn [truthy length Nat.eqb negb vget nth_error bind int_of_val]. rewrite Hn. cbn [bind]. destruct (n =? 0)%Z; reflexivity.
Qed.
Lemma nowhere_none link : links_nowhere props link -> link_fine link -> (if truthy link then h <- vget link 0 ;; n <- int_of_val h ;; ns <- link_names (Z.to_nat n) 0 link pidx ;;
         Ok (match ns with Some ns => some_str (join [46] ns) | None => None end) else Ok None) = Ok None.
Proof.
  intros [|l|n id r l Hn Hi|n p r id r' l Hn Hp Hi|n p c r r' l Hn Hp Hc] Hf; try reflexivity.
  - cbn [truthy length Nat.eqb negb vget nth_error bind]. rewrite number_int. cbn [bind]. rewrite Nat2Z.id. destruct n as [|n]; [lia|]. cbn [link_names vget nth_error bind id_str]. rewrite pidx_unknown by exact Hi. reflexivity.
  - cbn [truthy length Nat.eqb negb vget nth_error bind]. rewrite number_int. cbn [bind]. rewrite Nat2Z.id. destruct n as [|[|n]]; [lia|lia|]. cbn [link_names vget nth_error bind id_str]. rewrite pidx_known by exact Hp. cbn [bind]. rewrite col_unknown by exact Hi. reflexivity.
  - cbn [truthy length Nat.eqb negb vget nth_error bind]. rewrite number_int. cbn [bind]. rewrite Nat2Z.id. destruct Hf as [E|(m & l' & E & Hl & Hff)]; [discriminate|]. injection E as En <-.
    assert (m = n). { pose proof (int_of_str_of_int (Z.of_nat n)) as Q1. rewrite En, int_of_str_of_int in Q1. injection Q1. lia. } subst m.
    destruct n as [|[|[|n]]]; try lia. cbn [link_names vget nth_error bind id_str]. rewrite pidx_known by exact Hp. cbn [bind]. rewrite (col_known p c Hp Hc). cbn [bind].
    destruct l as [|x l]; [cbn in Hl; lia|]. cbn [firstn] in Hff. inversion Hff as [|? ? _ Hff1]; subst. inversion Hff1 as [|? ? _ Hff2]; subst. inversion Hff2 as [|? ? (id & q & ->) _]; subst. reflexivity.
Qed.
Lemma relink_prop_front path e : elem_ok props cmds path e -> shared path -> forall ed more, e_prop ed = plink e -> relink_prop pnames (fe_kind e) ed (fe_front e ++ more) = Ok (fe_front e ++ more).
Proof.
  intros He Hs ed more Hp. unfold relink_prop. rewrite Hp. destruct (plink e) as [[|c s]|] eqn:Ep; try reflexivity.
  unfold plink, prop_of in Ep. destruct (prop_at (fe_kind e)) as [at_|] eqn:E; [|reflexivity].
  destruct (eo_prop He (eq_trans (prop_place_is _) E)) as (link & Hst & Hf & Hl). specialize (Hl Hs). destruct (stands_calc Hst) as (i & Hi). destruct (Hi more) as (C1 & C2 & C3). destruct (Hi []) as (D1 & D2 & _). rewrite app_nil_r in D1, D2.
  rewrite C1. cbn [bind]. rewrite C2. cbn [bind]. rewrite D1 in Ep. cbn [bind] in Ep. rewrite D2 in Ep. cbn [bind] in Ep.
  destruct Hl as [Hl|(n & Hn & Hl)]; [rewrite (nowhere_none Hl Hf) in Ep; discriminate|]. destruct Hl as [p l Hpi|p k l Hpi Hki].
  - cbn [truthy length Nat.eqb negb vget nth_error bind] in *. rewrite number_int in *. cbn [bind] in *. rewrite Nat2Z.id in Ep. cbn [link_names vget nth_error bind id_str] in Ep. rewrite pidx_known in Ep by exact Hpi. cbn [bind link_names join] in Ep.
    destruct (sp_name p) as [|c0 s0] eqn:En; [contradiction|]. cbn [some_str] in Ep. injection Ep as <- <-. rewrite <- En, pnames_prop by exact Hpi.
    assert (Hid : truthy (VStr (sp_id p)) = true). { rewrite Forall_forall in ids_some. specialize (ids_some (sp_id p) (in_map _ _ _ Hpi)). destruct (sp_id p); [congruence|reflexivity]. }
    rewrite Hid. cbn [negb andb]. change (Z.of_nat 1 =? 1)%Z with true. cbn iota. cbn [Payload.vset nth_error set_nth bind]. exact C3.
  - cbn [truthy length Nat.eqb negb vget nth_error bind] in *. rewrite number_int in *. cbn [bind] in *. rewrite Nat2Z.id in Ep. cbn [link_names vget nth_error bind id_str] in Ep. rewrite pidx_known in Ep by exact Hpi. cbn [bind link_names vget nth_error id_str] in Ep. rewrite (col_known p k Hpi Hki) in Ep. cbn [bind link_names join] in Ep.
    destruct (sp_name p ++ [46] ++ fst k) as [|c0 s0] eqn:En; [contradiction|]. cbn [some_str] in Ep. injection Ep as <- <-. rewrite <- En, (pnames_col p k Hpi Hki).
    cbn [negb andb]. rewrite andb_false_r. change (Z.of_nat 2 =? 1)%Z with false. change (Z.of_nat 2 =? 2)%Z with true. cbn iota. cbn [bind Payload.vset nth_error set_nth]. exact C3.
Qed.
Lemma relink_cmd_front path e : elem_ok props cmds path e -> shared path -> forall ed more, e_cmd ed = clink e -> relink_cmd cnames (fe_kind e) ed (fe_front e ++ more) = Ok (fe_front e ++ more).
Proof.
  intros He Hs ed more Hp. unfold relink_cmd. rewrite Hp. destruct (clink e) as [[|c s]|] eqn:Ep; try reflexivity.
  unfold clink, cmd_of in Ep. destruct (command_at (fe_kind e)) as [at_|] eqn:E; [|reflexivity].
  destruct (eo_cmd He (eq_trans (command_place_is _) E)) as (link & Hst & Hf & Hl). specialize (Hl Hs). destruct (stands_calc Hst) as (i & Hi). destruct (Hi more) as (C1 & C2 & C3). destruct (Hi []) as (D1 & D2 & _). rewrite app_nil_r in D1, D2.
  rewrite C1. cbn [bind]. rewrite C2. cbn [bind]. rewrite D1 in Ep. cbn [bind] in Ep. rewrite D2 in Ep. cbn [bind] in Ep.
  destruct Hl as [->|[(l & ->)|(id & n & l & -> & Hn & Hz & Hc)]]; [reflexivity| |].
  - cbn [truthy length Nat.eqb negb vget nth_error bind] in Ep. rewrite number_int in Ep. cbn [bind] in Ep. discriminate.
  - cbn [truthy length Nat.eqb negb vget nth_error bind int_of_val] in *. rewrite Hn in Ep. cbn [bind] in Ep. replace (n =? 0)%Z with false in Ep by lia. cbn [id_str bind] in Ep.
    destruct (dget id cidx) as [nm|] eqn:Ei; [|discriminate]. destruct (cidx_found _ Ei) as (k & Hk & Hid & Hnm). destruct (Hc k Hk Hid) as [Hne Href].
    destruct nm as [|c0 s0]; [discriminate|]. cbn [some_str] in Ep. injection Ep as <- <-. rewrite <- Hnm, (cnames_known _ Hk), Href. cbn [truthy length Nat.eqb negb]. exact C3.
Qed.

(** ** One element *)
Definition tail_of (e : felem) : list val := match e with FElem k _ _ kids back => if has_kids k then number (length kids) :: pairs_of kids ++ back else [] end.
Definition bare_tail (e : felem) : list val := match e with FElem k _ _ kids back => if has_kids k then (match kids with [] => number 0 | _ => VStr kids_mark end) :: back else [] end.
Lemma raw_split e : raw_of e = fe_front e ++ tail_of e.
Proof. destruct e as [k n f kids b]. cbn [raw_of fe_front tail_of]. destruct (has_kids k); [reflexivity|rewrite app_nil_r; reflexivity]. Qed.
Lemma bare_split e : bare e = fe_front e ++ bare_tail e.
Proof. destruct e as [k n f kids b]. cbn [fe_front bare_tail]. unfold bare. destruct kids, (has_kids k); try reflexivity; rewrite app_nil_r; reflexivity. Qed.
Lemma name_of_front path e : elem_ok props cmds path e -> forall more, name_of (fe_kind e) (fe_front e ++ more) = Ok (fe_name e).
Proof. intros He more. unfold name_of. pose proof (eo_name He) as Hnm; rewrite name_place_is in Hnm; destruct (stands_calc Hnm) as (i & Hi). destruct (Hi more) as (C1 & C2 & _). rewrite C1. cbn [bind]. rewrite C2. cbn [bind quoted]. rewrite quoted_dec. reflexivity. Qed.
Definition ent (e : felem) : edata := mkedata (bare e) (plink e) (clink e).
(** what extraction puts in 'data', in its order *)
Fixpoint post (path : list N) (e : felem) : list (list N * edata) :=
  match e with FElem k name front kids back => flat_map (post (elem_path path (shared_name k name))) kids ++ [(elem_path path name, ent e)] end.
Definition posts (path : list N) (es : list felem) : list (list N * edata) := flat_map (post path) es.
Notation oks := (fun pe : list N * felem => elem_ok props cmds (fst pe) (snd pe)).

Lemma depth_in x l : In x l -> (vdepth x < vdepth (VList l))%nat.
Proof. cbn [vdepth]. induction l as [|y l IH]; intros H; [destruct H|]. cbn [fold_right]. destruct H as [->|H]; [lia|]. specialize (IH H). lia. Qed.
Lemma pair_in e es : In e es -> In (VList (raw_of e)) (pairs_of es).
Proof. intros H. unfold pairs_of. apply in_flat_map. exists e. split; [exact H|right; left; reflexivity]. Qed.
Lemma kid_depth e c : has_kids (fe_kind e) = true -> In c (fe_kids e) -> (vdepth (VList (raw_of c)) < vdepth (VList (raw_of e)))%nat.
Proof. intros Hk Hc. apply depth_in. destruct e as [k n f kids b]. cbn [fe_kind fe_kids] in *. cbn [raw_of]. rewrite Hk. fold (pairs_of kids). apply in_or_app. right. right. apply in_or_app. left. apply pair_in, Hc. Qed.
Lemma has_kids_at k : has_kids k = match kids_at k with Some _ => true | None => false end.
Proof. destruct k; reflexivity. Qed.

Lemma pairs_dec f path : forall es back d, (forall e d, In e es -> f (fe_kind e) (raw_of e) d = Ok (item_of e, bare e, dsets d (post path e))) ->
  dec_pairs f (length es) (pairs_of es ++ back) d = Ok (map item_of es, dsets d (posts path es)).
Proof.
  induction es as [|e es IH]; intros back d Hf; [reflexivity|]. cbn [length dec_pairs pairs_of flat_map app]. rewrite kind_uuid_known. rewrite (Hf e d (or_introl eq_refl)). cbn [bind]. fold (pairs_of es).
  rewrite (IH back (dsets d (post path e)) (fun e d H => Hf e d (or_intror H))). cbn [bind map posts flat_map]. rewrite dsets_app. reflexivity.
Qed.
Lemma list_dec_ok f path front es back d : (forall e d, In e es -> f (fe_kind e) (raw_of e) d = Ok (item_of e, bare e, dsets d (post path e))) ->
  dec_list f (zlen front) (front ++ number (length es) :: pairs_of es ++ back) d =
  Ok (match es with [] => None | _ => Some (map item_of es) end, front ++ (match es with [] => number 0 | _ => VStr kids_mark end) :: back, dsets d (posts path es)).
Proof.
  intros Hf. unfold dec_list. rewrite py_nth_mid. cbn [bind]. rewrite number_int. cbn [bind]. destruct es as [|e es].
  - cbn [length]. change (Z.of_nat 0 =? 0)%Z with true. cbn iota. reflexivity.
  - replace (Z.of_nat (length (e :: es)) =? 0)%Z with false by (cbn [length]; lia). pose proof (zlen_nonneg front). replace ((Z.of_nat (length (e :: es)) <? 0)%Z || (zlen front <? 0)%Z) with false by lia.
    unfold zlen. rewrite !Nat2Z.id. cbv zeta. replace (skipn (S (length front)) (front ++ number (length (e :: es)) :: pairs_of (e :: es) ++ back)) with (pairs_of (e :: es) ++ back).
    2:{ change (S (length front)) with (1 + length front)%nat. rewrite Nat.add_comm. clear. induction front as [|x front IH]; [reflexivity|]. cbn [length app Nat.add skipn]. exact IH. }
    rewrite (pairs_dec _ path) by exact Hf. cbn [bind]. repeat f_equal.
    + rewrite firstn_app, firstn_all, Nat.sub_diag. cbn [firstn]. rewrite app_nil_r. reflexivity.
    + assert (L : length (pairs_of (e :: es)) = (2 * length (e :: es))%nat) by (unfold pairs_of; clear; induction (e :: es) as [|x l IH]; [reflexivity|]; cbn [flat_map app length] in *; lia).
      replace (S (length front) + 2 * length (e :: es))%nat with (length (front ++ number (length (e :: es)) :: pairs_of (e :: es))) by (rewrite app_length; cbn [length]; rewrite L; cbn [length]; lia).
      replace (front ++ number (length (e :: es)) :: pairs_of (e :: es) ++ back) with ((front ++ number (length (e :: es)) :: pairs_of (e :: es)) ++ back) by (rewrite <- app_assoc; reflexivity).
      rewrite skipn_app, skipn_all, Nat.sub_diag. reflexivity.
Qed.

Lemma dec_elem_ok e : forall path fuel d, Forall oks (paths path e) -> ~ inside s_includr path -> (vdepth (VList (raw_of e)) <= fuel)%nat ->
  dec_elem pidx cidx fuel path (fe_kind e) (raw_of e) d = Ok (item_of e, bare e, dsets d (post path e)).
Proof.
  induction e as [k n f kids b IH] using felem_ind2. intros path fuel d Ho Hp Hd. set (e := FElem k n f kids b) in *.
  destruct fuel as [|fuel]; [cbn [vdepth] in Hd; lia|]. cbn [paths] in Ho. fold e in Ho. inversion Ho as [|? ? He Hks]; subst. cbn [fst snd] in He.
  cbn [dec_elem fe_kind e]. change k with (fe_kind e). fold e in He. rewrite (size_checked _ _ (eo_size He)). cbn [bind]. rewrite raw_split.
  rewrite (name_of_front He), (prop_of_front He), (cmd_of_front He). cbn [bind].
  destruct (kids_at (fe_kind e)) as [at_|] eqn:E.
  - destruct (eo_kids He (eq_trans (kids_place_is _) E)) as (x & data & Ef & Hlo). destruct (kids_last _ E) as (cs & m & -> & Hm).
    assert (Hh : has_kids (fe_kind e) = true) by (rewrite has_kids_at, E; reflexivity).
    assert (Et : tail_of e = number (length kids) :: pairs_of kids ++ b) by (unfold e; cbn [tail_of]; cbn [fe_kind e] in Hh; unfold e in Hh; cbn [fe_kind] in Hh; rewrite Hh; reflexivity).
    rewrite Et. rewrite Ef at 1. rewrite (place_calc cs x data _ Hm Hlo). rewrite <- Ef. cbn [bind].
    destruct (kids_path_eq (path := path) Hh Hp (eo_renaming He)) as [Hkp Hin]. change (fe_name e) with n in Hkp, Hin. change (fe_kind e) with k in Hkp, Hin.
    cbn [fe_name fe_kind]. rewrite (list_dec_ok _ (elem_path path (shared_name k n))).
    + cbn [bind]. change (fe_kind e) with k in Hh.
      assert (Ei : item_of e = FItem n k match kids with [] => None | _ => Some (map item_of kids) end) by (unfold e; cbn [item_of]; rewrite Hh; reflexivity).
      assert (Eb : bare e = fe_front e ++ match kids with [] => number 0 | _ => VStr kids_mark end :: b) by (rewrite bare_split; unfold e at 2; cbn [bare_tail]; rewrite Hh; reflexivity).
      assert (Ep : post path e = posts (elem_path path (shared_name k n)) kids ++ [(elem_path path n, ent e)]) by reflexivity.
      rewrite Ei, Ep, dsets_app. unfold ent. rewrite Eb. reflexivity.
    + intros c d' Hc. change (kids_path _ _ _) with (kids_path k path n). rewrite Hkp. rewrite Forall_forall in IH. apply IH; [exact Hc| |exact Hin|].
      * rewrite Forall_forall in Hks |- *. intros pe Hpe. apply Hks. apply in_flat_map. exists c. auto.
      * pose proof (kid_depth e c Hh Hc) as Q. lia.
  - assert (Hh : has_kids (fe_kind e) = false) by (rewrite has_kids_at, E; reflexivity). destruct (eo_leaf He Hh) as [Ek Eb]. cbn [fe_kids fe_back e] in Ek, Eb.
    assert (Et : tail_of e = []) by (unfold e; cbn [tail_of]; change (fe_kind e) with k in Hh; rewrite Hh; reflexivity). rewrite Et, app_nil_r.
    assert (Eb2 : bare e = fe_front e) by (rewrite bare_split; unfold e; cbn [bare_tail]; change (fe_kind e) with k in Hh; rewrite Hh, app_nil_r; reflexivity).
    cbn [item_of post fe_kind e fe_name]. change (fe_kind e) with k in Hh. rewrite Hh. unfold e in Ek. cbn [fe_kids] in Ek. subst kids. cbn [flat_map app]. fold e. unfold dsets. cbn [fold_left fst snd]. unfold ent. rewrite Eb2. reflexivity.
Qed.

(** ** Build of one element *)
Lemma bare_raw e : fe_kids e = [] -> bare e = raw_of e.
Proof. destruct e as [k n f kids b]. cbn [fe_kids]. intros ->. cbn [raw_of bare flat_map app]. reflexivity. Qed.
Lemma pairs_map es : flat_map (fun y : fkind * list val => [VStr (kind_uuid (fst y)); VList (snd y)]) (map (fun c => (fe_kind c, raw_of c)) es) = pairs_of es.
Proof. unfold pairs_of. induction es as [|e es IH]; [reflexivity|]. cbn [map flat_map app fst snd]. rewrite IH. reflexivity. Qed.
Lemma put_kids_mid front c es back : put_kids (zlen front) (map (fun c => (fe_kind c, raw_of c)) es) (front ++ c :: back) = Ok (front ++ number (length es) :: pairs_of es ++ back).
Proof.
  unfold put_kids. rewrite zput_mid. cbn [bind]. rewrite map_length, pairs_map. f_equal.
  replace (S (Z.to_nat (zlen front))) with (length (front ++ [number (length es)])) by (rewrite app_length; unfold zlen; cbn [length]; lia).
  change (VStr (str_of_int (Z.of_nat (length es)))) with (number (length es)).
  replace (front ++ number (length es) :: back) with ((front ++ [number (length es)]) ++ back) by (rewrite <- app_assoc; reflexivity).
  rewrite firstn_app, skipn_app, firstn_all, skipn_all, Nat.sub_diag. cbn [firstn skipn app]. rewrite app_nil_r, <- app_assoc. reflexivity.
Qed.
Lemma item_kind_of e : item_kind (item_of e) = fe_kind e.
Proof. destruct e. reflexivity. Qed.
Section Build.
Variable pn : list (list N * (val * option val)).
Variable cn : list (list N * val).
Variable data : list (list N * edata).
Definition based (key : list N) (e : felem) : Prop := forall path, elem_path path (fe_name e) = key -> base_enc pn cn data (fe_kind e) path (fe_name e) = Ok (bare e).
(** the parts that the build looks at *)
Record built_ok (key : list N) (e : felem) : Prop := {
  bo_kids : forall at_, kids_at (fe_kind e) = Some at_ -> exists x data, fe_front e = x :: data /\ laid_out at_ (data ++ [number (length (fe_kids e))]);
  bo_leaf : has_kids (fe_kind e) = false -> fe_kids e = [] /\ fe_back e = [];
  bo_base : based key e
}.
Lemma enc_elem_ok e : forall path, Forall (fun pe => built_ok (fst pe) (snd pe)) (paths path e) -> enc_elem pn cn data path (item_of e) = Ok (raw_of e).
Proof.
  induction e as [k n f kids b IH] using felem_ind2. intros path Ho. set (e := FElem k n f kids b) in *.
  cbn [paths] in Ho. fold e in Ho. inversion Ho as [|? ? He Hks]; subst. cbn [fst snd] in He.
  unfold e at 1. cbn [item_of enc_elem]. assert (Hb : base_enc pn cn data k path n = Ok (bare e)) by exact (bo_base He path eq_refl). rewrite Hb. cbn [bind]. clear Hb.
  destruct (kids_at k) as [at_|] eqn:E.
  - assert (Hh : has_kids k = true) by (rewrite has_kids_at, E; reflexivity). rewrite Hh. assert (Hcase : kids = [] \/ kids <> []) by (destruct kids; [left; reflexivity|right; discriminate]). destruct Hcase as [Hnil|Hcons].
    { replace (match kids with [] => None | _ => Some (map item_of kids) end) with (@None (list fitem)) by (rewrite Hnil; reflexivity). rewrite bare_raw by exact Hnil. reflexivity. }
    replace (match kids with [] => None | _ => Some (map item_of kids) end) with (Some (map item_of kids)) by (destruct kids; [contradiction|reflexivity]).
    assert (Hne : map item_of kids <> []) by (destruct kids; [contradiction|discriminate]). destruct (map item_of kids) as [|i0 is0] eqn:Em; [contradiction|]. cbn iota. clear Hne.
    destruct (bo_kids He E) as (x & dd & Ef & Hlo). destruct (kids_last _ E) as (cs & m & -> & Hm).
    assert (Eb : bare e = fe_front e ++ VStr kids_mark :: b) by (rewrite bare_split; unfold e; cbn [bare_tail]; rewrite Hh; destruct kids; [contradiction|reflexivity]).
    fold e in Ef. rewrite Eb, Ef, (place_calc cs x dd _ Hm Hlo), <- Ef. cbn [bind]. rewrite !(@back_path_eq k path n Hh).
    assert (Hgo : (fix go (l : list fitem) : res (list (fkind * list val)) := match l with [] => Ok [] | x :: r => z <- enc_elem pn cn data (elem_path path (shared_name k n)) x ;; zs <- go r ;; Ok ((item_kind x, z) :: zs) end) (map item_of kids) = Ok (map (fun c => (fe_kind c, raw_of c)) kids)).
    { clear -IH Hks. induction kids as [|c kids IHk]; [reflexivity|]. cbn [map]. inversion IH as [|? ? Hc IH']; subst. cbn [flat_map] in Hks. apply Forall_app in Hks. destruct Hks as [Hks1 Hks2].
      rewrite (Hc _ Hks1). cbn [bind]. rewrite (IHk IH' Hks2). cbn [bind]. rewrite item_kind_of. reflexivity. }
    rewrite Em in Hgo. cbn iota in Hgo. rewrite Hgo. cbn [bind]. rewrite put_kids_mid. rewrite raw_split. unfold e. cbn [tail_of]. rewrite Hh. reflexivity.
  - assert (Hh : has_kids k = false) by (rewrite has_kids_at, E; reflexivity). destruct (bo_leaf He Hh) as [Ek Eb]. rewrite (bare_raw e Ek). reflexivity.
Qed.
Lemma enc_items_ok es : Forall (fun pe => built_ok (fst pe) (snd pe)) (all_paths es) -> enc_items pn cn data [] (map item_of es) = Ok (map (fun c => (fe_kind c, raw_of c)) es).
Proof.
  unfold all_paths, enc_items. induction es as [|e es IH]; intros H; [reflexivity|]. cbn [flat_map] in H. apply Forall_app in H. destruct H as [H1 H2]. cbn [map mapm]. rewrite (enc_elem_ok _ _ H1). cbn [bind]. rewrite (IH H2). cbn [bind]. rewrite item_kind_of. reflexivity.
Qed.
End Build.
(** an element as extraction keeps it *)
Lemma zput_name path e more : elem_ok props cmds path e -> exists off, calc_offset (name_at (fe_kind e)) (fe_front e ++ more) = Ok off /\ zput off (VStr (str_encode (fe_name e))) (fe_front e ++ more) = Ok (fe_front e ++ more).
Proof. intros He. pose proof (eo_name He) as Hnm; rewrite name_place_is in Hnm; destruct (stands_calc Hnm) as (i & Hi). destruct (Hi more) as (C1 & _ & C3). exists i. split; [exact C1|exact C3]. Qed.
Lemma based_ent data key e : elem_ok props cmds key e -> dget key data = Some (ent e) -> based pnames cnames data key e.
Proof.
  intros He Hd path Hk. unfold base_enc. rewrite Hk, Hd. unfold ent. cbn [e_raw].
  assert (H1 : (if has s_includr key then off <- calc_offset (name_at (fe_kind e)) (bare e) ;; zput off (VStr (str_encode (fe_name e))) (bare e) else Ok (bare e)) = Ok (bare e)).
  { destruct (has s_includr key); [|reflexivity]. rewrite bare_split. destruct (zput_name (bare_tail e) He) as (off & -> & Hz). cbn [bind]. exact Hz. }
  rewrite H1. cbn [bind]. destruct (has s_include key || has s_includr key) eqn:Es; [|reflexivity].
  assert (Hs : shared key). { apply orb_true_iff in Es. destruct Es as [Es|Es]; apply has_inside in Es; [left|right]; exact Es. }
  rewrite bare_split. rewrite (relink_prop_front He Hs) by reflexivity. cbn [bind]. apply (relink_cmd_front He Hs). reflexivity.
Qed.
(** the keys of the data are the paths *)
Lemma post_perm e : forall path, Permutation (post path e) (map (fun pe => (fst pe, ent (snd pe))) (paths path e)).
Proof.
  induction e as [k n f kids b IH] using felem_ind2. intros path. cbn [post paths map fst snd]. eapply perm_trans; [apply Permutation_app_comm|]. cbn [app]. apply perm_skip.
  induction kids as [|c kids IHk]; [apply perm_nil|]. inversion IH as [|? ? Hc IH']; subst. cbn [flat_map]. rewrite map_app. apply Permutation_app; [apply Hc|apply IHk, IH'].
Qed.
Lemma posts_perm es : Permutation (posts [] es) (map (fun pe => (fst pe, ent (snd pe))) (all_paths es)).
Proof.
  unfold posts, all_paths. induction es as [|e es IH]; [apply perm_nil|]. cbn [flat_map]. rewrite map_app. apply Permutation_app; [apply post_perm|exact IH].
Qed.
End S.
