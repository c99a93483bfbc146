(** Lists of included objects (Include.v): the theorems. *)
From Coq Require Import String Permutation.
From Verif Require Import PyBase PyInt PyText Utf Brace Spec_Brace Pipeline Payload ObjCode MetaObj Spec_MetaObj Container ContainerProofs Spec_Container EncodeLoop EncodeLoopProofs Types Include Spec_Include IncludeProofs IncludeMain Classes MetaObj Real RealProofs.
From Verif Require Import Props_Brace UpdateDictProofs.
Open Scope list_scope.
Open Scope N_scope.

(** Taking the included objects out of a list and putting back what the build has for them gives every group
    again as [regrouped] says; without auto_include that is the list itself. *)
Theorem C59_list_restored : forall Y (inner : list N -> option (val -> res (list N * Y))) lower auto idx a b count gs more ks gs',
  list_ok count gs -> regrouped_all inner lower auto idx gs ks gs' -> NoDup (map fst ks) ->
  exists marked, dec_include auto inner (list_val a b count gs more) = Ok (marked, ks) /\ vfill_include lower idx marked = Ok (list_val a b count gs' more) /\
    (auto = false -> gs' = gs).
Proof.
  intros Y inner lower auto idx a b count gs more ks gs' Hl HR Hn. destruct (@include_core Y inner lower auto idx a b count gs more ks gs' Hl HR Hn) as (ss & D & F & _). eexists. split; [exact D|]. split; [exact F|].
  intros ->. clear - HR. induction HR as [|g k g' gs ks gs' R HR IH]; [reflexivity|]. rewrite IH. f_equal. destruct R; [reflexivity|reflexivity|reflexivity|discriminate].
Qed.
Print Assumptions C59_list_restored.

(** With auto_include and at least one object at extraction, a build puts in whatever objects of the type it
    has, also new ones: all of them, in order of their names, and their number. *)
Theorem C59_auto_objects : forall Y (inner : list N -> option (val -> res (list N * Y))) lower (idx : tindex val) g t ks es,
  group_ok g -> known g = Some t -> g_objs g <> [] -> Forall2 (taken inner t) (g_objs g) ks ->
  Permutation (of_type idx t) es -> ascending (map fst es) ->
  exists s, dec_slot true inner (group_val g) = Ok (s, [(t, ks)]) /\
    vfill_slot lower idx s = Ok (group_val (mkgroup (g_type g) (str_of_int (Z.of_nat (length es))) (map (fun e => snd (snd e)) es) [])).
Proof.
  intros Y inner lower idx g t ks es Hok Hk Hne Ht HP Ha. exists (VStr t). unfold group_ok in Hok. unfold known in Hk. split.
  - unfold dec_slot, group_val. rewrite Hok, Hk. cbv zeta. rewrite Nat2Z.id, len_leb, firstn_all_app, (@dec_objs_taken Y inner true t _ _ Ht). cbn [bind].
    destruct ks as [|k ks]; [inversion Ht; congruence|]. reflexivity.
  - cbn [vfill_slot]. rewrite (@type_value_of _ _ Hk). cbv zeta. unfold group_val. cbn [g_type g_count g_objs g_more]. rewrite app_nil_r.
    assert (E : sort_names (of_type idx t) = es).
    { apply ascending_unique; [rewrite <- HP; symmetry; apply sort_by_perm| |exact Ha]. apply sort_names_ascending. eapply Permutation_NoDup; [apply Permutation_map; symmetry; exact HP|].
      clear - Ha. induction es as [|[n x] es IH]; [constructor|]. cbn [map fst] in *. destruct Ha as [A B]. constructor; [|apply IH; exact B]. intros Hi. rewrite Forall_forall in A. specialize (A n Hi). clear - A. induction n as [|c n IH]; [exact A|]. destruct A as [A|[_ A]]; [lia|auto]. }
    rewrite E. reflexivity.
Qed.
Print Assumptions C59_auto_objects.

(** The inner classes of the program read the texts they write. *)
Theorem C59_inner_objects_read : forall os alnum valid (src : folder) t l uuid name own,
  (exists f, inner_of os alnum valid src t = Some f /\ f (VList l) = Ok (uuid, (name, own))) ->
  exists c, In c inner_classes /\ c_name c = t /\ inner_decode os alnum valid c [] src (VList l) = Ok (uuid, name, own, tt).
Proof.
  intros os alnum valid src t l uuid name own (f & Hf & E). unfold inner_of in Hf. destruct (find (fun c : class => str_eqb t (c_name c)) inner_classes) as [c|] eqn:Ec.
  - injection Hf as <-. apply find_some in Ec. destruct Ec as [Hc Et]. apply str_eqb_spec in Et. exists c. split; [exact Hc|]. split; [congruence|].
    destruct (inner_decode os alnum valid c [] src (VList l)) as [[[[u0 n0] o0] []]|]; [|discriminate]. cbn [bind] in E. congruence.
  - destruct (existsb (str_eqb t) no_class); [discriminate|]. injection Hf as <-. discriminate.
Qed.
Print Assumptions C59_inner_objects_read.

(** ** What does not hold *)
(** With auto_include, the first object of a type that had none at extraction is not put in. *)
Theorem C59_first_object_refuted : forall Y (inner : list N -> option (val -> res (list N * Y))) lower auto (idx : tindex val) g t,
  group_ok g -> known g = Some t -> g_objs g = [] ->
  dec_slot auto inner (group_val g) = Ok (group_val g, []) /\ vfill_slot lower idx (group_val g) = Ok (group_val g).
Proof.
  intros Y inner lower auto idx g t Hok Hk Ho. unfold group_ok in Hok. unfold known in Hk. rewrite Ho in Hok. split.
  - unfold dec_slot, group_val. rewrite Ho, Hok, Hk. reflexivity.
  - unfold vfill_slot, group_val. rewrite Ho, Hok, Hk. destruct (of_type idx t); reflexivity.
Qed.
Print Assumptions C59_first_object_refuted.
(** Without auto_include, an object inside the file of its parent whose type has no source folder left is built
    as its identifier. *)
Theorem C59_deleted_objects_refuted : forall Y (inner : list N -> option (val -> res (list N * Y))) lower (idx : tindex val) g t l f uuid y,
  g_objs g = [VList l] -> group_ok g -> known g = Some t -> inner t = Some f -> f (VList l) = Ok (uuid, y) -> of_type idx t = [] ->
  exists s, dec_slot false inner (group_val g) = Ok (s, [(t, [CInner uuid y])]) /\
    vfill_slot lower idx s = Ok (group_val (mkgroup (g_type g) (g_count g) [VStr uuid] (g_more g))).
Proof.
  intros Y inner lower idx g t l f uuid y Ho Hok Hk Hf Hy Hi. unfold group_ok in Hok. unfold known in Hk. eexists. split.
  - unfold dec_slot, group_val. rewrite Hok, Hk. cbv zeta. rewrite Nat2Z.id, len_leb, firstn_all_app, skipn_all_app, Ho. cbn [dec_objs]. rewrite Hf, Hy. reflexivity.
  - unfold vfill_slot, group_val. cbn [g_type g_count g_objs g_more app]. rewrite Hok, Hk, Hi. reflexivity.
Qed.
Print Assumptions C59_deleted_objects_refuted.
(** A listed object without a source stops the build if others of its type have one; a source that is not listed
    is left out. *)
Theorem C59_missing_object : forall lower (idx : tindex val) g t objs1 uuid objs2,
  g_objs g = map VStr (objs1 ++ uuid :: objs2) -> group_ok g -> known g = Some t -> of_type idx t <> [] ->
  (forall e, In e (of_type idx t) -> lower (fst (snd e)) <> lower uuid) -> exists e, vfill_slot lower idx (group_val g) = Err e.
Proof.
  intros lower idx g t o1 uuid o2 Ho Hok Hk Hne Hm. unfold group_ok in Hok. unfold known in Hk. unfold vfill_slot, group_val. rewrite Hok, Hk. destruct (of_type idx t) as [|e0 es0] eqn:Ee; [congruence|]. cbv zeta. rewrite Nat2Z.id, len_leb, firstn_all_app, Ho.
  assert (L : forall l, (forall e, In e l -> lower (fst (snd e)) <> lower uuid) -> last_with lower uuid l = (None : option val)).
  { induction l as [|[n [u' d]] l IH]; intros H; [reflexivity|]. cbn [last_with]. rewrite IH by (intros; apply H; right; assumption). specialize (H _ (or_introl eq_refl)). cbn [fst snd] in H. destruct (str_eqb (lower u') (lower uuid)) eqn:E; [apply str_eqb_spec in E; contradiction|reflexivity]. }
  rewrite <- Ee. clear Hok Hne. rewrite Ee in *. specialize (L _ Hm). exists ExtExc.
  assert (K : fill_objs lower (e0 :: es0) (map VStr (o1 ++ uuid :: o2)) = Err ExtExc).
  { induction o1 as [|x o1 IH] in |- *; cbn [app map fill_objs]; [rewrite L; reflexivity|]. destruct (last_with lower x (e0 :: es0)); [|reflexivity]. rewrite IH. reflexivity. }
  rewrite K. reflexivity.
Qed.
Print Assumptions C59_missing_object.
Theorem C59_unlisted_object : forall lower (idx : tindex val) g t s, group_ok g -> known g = Some t -> vfill_slot lower idx (group_val g) = Ok s ->
  exists objs, length objs = length (g_objs g) /\ s = group_val (mkgroup (g_type g) (g_count g) objs (g_more g)).
Proof.
  intros lower idx g t s Hok Hk H. unfold group_ok in Hok. unfold known in Hk. unfold vfill_slot, group_val in H. rewrite Hok, Hk in H. destruct (of_type idx t) as [|e0 es0]; [injection H as <-; exists (g_objs g); auto|].
  cbv zeta in H. rewrite Nat2Z.id, len_leb, firstn_all_app, skipn_all_app in H. destruct (fill_objs lower (e0 :: es0) (g_objs g)) as [os|] eqn:E; [|discriminate]. injection H as <-. exists os. split; [|reflexivity].
  clear - E. revert os E. induction (g_objs g) as [|o l IH]; intros os E; [injection E as <-; reflexivity|]. cbn [fill_objs] in E. destruct o as [|x|]; try discriminate. destruct (last_with lower x (e0 :: es0)); [|discriminate].
  destruct (fill_objs lower (e0 :: es0) l) as [r|]; [|discriminate]. injection E as <-. cbn [length]. rewrite (IH r eq_refl). reflexivity.
Qed.
Print Assumptions C59_unlisted_object.
(** A list that names objects of one type in two groups cannot be extracted. *)
Theorem C59_type_twice_refuted : forall Y (inner : list N -> option (val -> res (list N * Y))) auto a b count g1 g2 more t k1 k2,
  list_ok count [g1; g2] -> known g1 = Some t -> known g2 = Some t -> k1 <> [] -> k2 <> [] -> Forall2 (taken inner t) (g_objs g1) k1 -> Forall2 (taken inner t) (g_objs g2) k2 ->
  dec_include auto inner (list_val a b count [g1; g2] more) = Err ExtExc.
Proof.
  intros Y inner auto a b count g1 g2 more t k1 k2 [Hc Hg] H1 H2 N1 N2 T1 T2. apply Forall_cons_iff in Hg. destruct Hg as [G1 Hg]. apply Forall_inv in Hg.
  assert (D : forall g k, group_ok g -> known g = Some t -> k <> [] -> Forall2 (taken inner t) (g_objs g) k -> exists s, dec_slot auto inner (group_val g) = Ok (s, [(t, k)])).
  { clear. intros g k Hok Hk Hn HT. unfold group_ok in Hok. unfold known in Hk. unfold dec_slot, group_val. rewrite Hok, Hk. cbv zeta. rewrite Nat2Z.id, len_leb, firstn_all_app, (@dec_objs_taken Y inner auto t _ _ HT). cbn [bind]. destruct k; [congruence|]. eexists. reflexivity. }
  destruct (D g1 k1 G1 H1 N1 T1) as [s1 E1]. destruct (D g2 k2 Hg H2 N2 T2) as [s2 E2].
  unfold dec_include, list_val. rewrite Hc. cbv zeta. rewrite Nat2Z.id. rewrite <- (map_length group_val [g1; g2]), len_leb, firstn_all_app. cbn [map dec_slots]. rewrite E1. cbn [bind]. rewrite E2. cbn [bind app map fst nodup_names existsb]. rewrite str_eqb_refl. reflexivity.
Qed.
Print Assumptions C59_type_twice_refuted.

(** Two subsystems in the list of a parent, found by the build in the other order: without auto_include in the
    order of the list, with it in the order of the names. *)
Definition il_u1 : list N := Eval vm_compute in u "b2f1c8a0-1111-2222-3333-444455556664"%string.
Definition il_u2 : list N := Eval vm_compute in u "b2f1c8a0-1111-2222-3333-444455556665"%string.
Definition il_t : list N := Eval vm_compute in u "Subsystem"%string.
Definition il_g : group := Eval vm_compute in mkgroup (match dget il_t type_table with Some v => v | None => [] end) [48; 50] [VStr il_u2; VStr il_u1] [VStr [48]].
Definition il_other : group := mkgroup [56] [49] [VList [VStr [53]]] [].
Definition il_idx : tindex val := [(il_t, [([65], (il_u1, VStr il_u1)); ([66], (il_u2, VStr il_u2))])].
Definition no_inner : list N -> option (val -> res (list N * unit)) := fun _ => None.
Example C59_hypotheses_met : list_ok [50] [il_other; il_g] /\ NoDup (map fst [(il_t, [CFile unit il_u2; CFile unit il_u1])]) /\
  regrouped_all no_inner (fun s => s) false il_idx [il_other; il_g] [(il_t, [CFile unit il_u2; CFile unit il_u1])] [il_other; il_g] /\
  regrouped_all no_inner (fun s => s) true il_idx [il_other; il_g] [(il_t, [CFile unit il_u2; CFile unit il_u1])]
    [il_other; mkgroup (g_type il_g) [50] [VStr il_u1; VStr il_u2] []].
Proof.
  split; [split; [reflexivity|repeat constructor]|]. split; [apply nodup_strs; reflexivity|].
  assert (T : Forall2 (taken no_inner il_t) (g_objs il_g) [CFile unit il_u2; CFile unit il_u1]) by (repeat constructor).
  assert (E : entries_for (fun s => s) (g_objs il_g) [CFile unit il_u2; CFile unit il_u1] [([66], (il_u2, VStr il_u2)); ([65], (il_u1, VStr il_u1))]).
  { split; [repeat constructor|]. split; [repeat constructor|]. split; apply nodup_strs; reflexivity. }
  assert (Pm : Permutation (of_type il_idx il_t) [([66], (il_u2, VStr il_u2)); ([65], (il_u1, VStr il_u1))]) by apply perm_swap.
  split.
  - apply (@ra_cons _ no_inner (fun s => s) false il_idx il_other [] il_other); [apply rg_unknown; reflexivity|].
    apply (@ra_cons _ no_inner (fun s => s) false il_idx il_g [(il_t, [CFile unit il_u2; CFile unit il_u1])] il_g [] []); [|constructor].
    eapply rg_listed; [reflexivity|reflexivity|discriminate|exact T|exact E|exact Pm].
  - apply (@ra_cons _ no_inner (fun s => s) true il_idx il_other [] il_other); [apply rg_unknown; reflexivity|].
    apply (@ra_cons _ no_inner (fun s => s) true il_idx il_g [(il_t, [CFile unit il_u2; CFile unit il_u1])] (mkgroup (g_type il_g) [50] [VStr il_u1; VStr il_u2] []) [] []); [|constructor].
    apply (@rg_sorted _ no_inner (fun s => s) true il_idx il_g il_t [CFile unit il_u2; CFile unit il_u1] [([66], (il_u2, VStr il_u2)); ([65], (il_u1, VStr il_u1))] [([65], (il_u1, VStr il_u1)); ([66], (il_u2, VStr il_u2))]); [reflexivity|reflexivity|discriminate|exact T|exact E|exact Pm|apply perm_swap|].
    split; [repeat constructor|]. repeat constructor.
Qed.
