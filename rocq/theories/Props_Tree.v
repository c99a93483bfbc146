(** Containers with objects in objects (Tree.v, EncodeLoop.v, Real.v): the theorems. *)
From Coq Require Import String Permutation.
From Verif Require Import PyBase PyInt PyText Utf Brace Spec_Brace BraceMore JsonText JsonTextProofs JsonObj Header Spec_Misc Pipeline Spec_Stage ObjCode Spec_Obj Payload Spec_Payload PayloadProofs MetaObj Spec_MetaObj MetaObjBase MetaObjGood MetaObjMain ClassesProofs
  Container Spec_Container EncodeLoop Spec_Encode Types Include Spec_Include IncludeProofs IncludeMain Tree Spec_Tree Spec_Again TreeProofs TreeBuild Classes MetaObj Real Spec_Real RealProofs RealMain RealFiles RealSame.
From Verif Require Import Props_Brace UpdateDictProofs CanonCheck.
From Verif Require Props_Misc Props_Stage Props_Obj Props_Payload Props_MetaObj.
Open Scope list_scope.
Open Scope N_scope.

(** Objects in objects, to any depth: extraction with the tasks ending in any order makes one source folder for
    each object and no others; a build from these folders, listed in any order and with the tasks ending in
    any order, writes exactly the files of all the objects with the same content, each once, and gives the
    top object the data of its included objects. *)
Theorem C60_tree_restored : forall os alnum valid lower auto version (src : folder) other_dec other_enc xs,
  Forall scalar version -> (forall x, In x xs -> placed os alnum valid lower auto version src other_dec other_enc x /\ it_inner x = false) -> different lower xs -> by_name auto other_enc ->
  forall xsched xfuel, schedule xsched -> (it_heights xs <= xfuel)%nat ->
  exists ss, xloop (real_dec os alnum valid auto version src other_dec) xfuel 0 xsched [] (map (fun x => mkxtask (it_type x) (it_uuid x) []) xs) = Ok ss /\
    Permutation (map fst ss) (flat_map it_folders xs) /\ NoDup (map fst ss) /\
    forall root bsched bfuel folders, reads_again auto ss folders -> schedule bsched -> (2 * it_heights xs <= bfuel)%nat ->
    exists idx files, encode_tree (real_enc os alnum lower version other_enc) bfuel bsched root folders = Ok (idx, files) /\
      Permutation (map fst files) (flat_map (it_files src) (flat_map below xs)) /\
      Forall (fun e : written => same_entry (dget (fst e) src) (snd e)) files /\
      (NoDup (map it_uuid (flat_map below xs)) -> (forall x, In x (flat_map below xs) -> ~ In 46 (it_uuid x)) -> NoDup (map fst files)) /\
      (forall t, Permutation (match idx with Some d => of_type d t | None => [] end) (it_entries t xs)).
Proof.
  intros os alnum valid lower auto version src other_dec other_enc xs Hver Hpl Hdf Hbn xsched xfuel Hxs Hxf.
  assert (K : exists os', Forall2 (models src) xs os' /\ Forall2 (made os alnum valid src) xs os' /\ forall o, In o os' -> handled lower real_lists real_rd (real_dec os alnum valid auto version src other_dec) (real_enc os alnum lower version other_enc) o /\ o_inner o = false).
  { clear - Hpl Hver. induction xs as [|x xs IH]; [exists []; split; [constructor|split; [constructor|intros o []]]|]. destruct (Hpl x (or_introl eq_refl)) as [Hp Hi]. destruct (item_handled Hver Hp) as (o & A & B & C).
    destruct IH as (os' & A2 & B2 & C2); [intros y Hy; apply Hpl; right; exact Hy|]. exists (o :: os'). split; [constructor; assumption|]. split; [constructor; assumption|]. intros y [<-|Hy]; [|auto]. split; [exact B|]. rewrite (md_inner C). exact Hi. }
  destruct K as (os' & Hm & Hmd & Hh). destruct (models_all Hm) as (M1 & M2 & M3). pose proof (models_heights Hm) as M4.
  destruct (@extraction folder written lower real_lists real_rd _ (real_enc os alnum lower version other_enc) xsched xfuel os' Hxs Hh) as (ss & E1 & E2).
  { rewrite (made_tags Hmd). apply Hdf. }
  { rewrite M4. exact Hxf. }
  assert (Et : map (fun o : object folder written => mkxtask (o_type o) (o_uuid o) []) os' = map (fun x => mkxtask (it_type x) (it_uuid x) []) xs).
  { clear - Hmd. induction Hmd as [|x o xs os' H Hr IH]; [reflexivity|]. cbn [map]. rewrite IH, (md_type H), (md_uuid H). reflexivity. }
  rewrite Et in E1. exists ss. split; [exact E1|].
  assert (Pf : Permutation (map fst ss) (flat_map it_folders xs)) by (rewrite <- M1; apply Permutation_map; exact E2). split; [exact Pf|].
  assert (Hdist : distinct lower os') by (eapply made_distinct; eassumption). split.
  { eapply Permutation_NoDup; [apply Permutation_map; symmetry; exact E2|]. apply folders_nodup_all; [|apply Hdist]. intros o Ho. eapply folders_nodup. apply (Hh o Ho). }
  intros root bsched bfuel folders Hr Hbs Hbf.
  destruct Hr as (ss' & Hrb & Hr).
  assert (E2' : read_back (again auto) [] (flat_map (@Spec_Tree.folders _ _) os') ss').
  { destruct Hrb as [R1 R2]. split; [intros p b Hb; destruct (R1 p b Hb) as (a & Ha & Hab); exists a; split; [exact (Permutation_in _ E2 Ha)|exact Hab]|intros p a Ha; exact (R2 p a (Permutation_in _ (Permutation_sym E2) Ha))]. }
  destruct (@assembly folder written lower real_lists real_rd _ (real_enc os alnum lower version other_enc) (again auto) (@real_rd_again auto) (fun t n a b idx r => @real_enc_again os alnum lower auto version other_enc t n a b idx r Hbn) (@enc_order_free os alnum lower version other_enc) root bsched bfuel os' ss' folders (fun o Ho => proj1 (Hh o Ho)) Hdist E2' Hr Hbs) as (idx & files & B1 & B2 & B3).
  { rewrite M4. exact Hbf. }
  exists idx, files. split; [exact B1|].
  assert (Pn : Permutation (map fst files) (flat_map (it_files src) (flat_map below xs))) by (eapply perm_trans; [apply Permutation_map; exact B2|exact M2]). split; [exact Pn|]. split.
  { apply Forall_forall. intros e He. rewrite Forall_forall in M3. apply M3. eapply Permutation_in; [exact B2|exact He]. }
  split.
  - intros Hu Hd. eapply Permutation_NoDup; [symmetry; exact Pn|]. apply files_nodup; [exact Hu|]. intros x Hx. split; [apply Hd; exact Hx|].
    assert (Hp : placed os alnum valid lower auto version src other_dec other_enc x).
    { apply in_flat_map in Hx. destruct Hx as (y & Hy & Hx). destruct (Hpl y Hy) as [Hpy _]. clear - Hpy Hx. revert x Hx.
      induction Hpy as [| |c uuid name locs comment data hdr a b count gs more rest ys Hc Hnm Hat Hf Ed Hl Hto Hid Hls Hdf Hpl IH|]; intros x [<-|Hx]; try destruct Hx.
      - eapply placed_simple; eassumption.
      - eapply placed_inner; eassumption.
      - eapply placed_container; eassumption.
      - change (In x (flat_map below ys)) in Hx. apply in_flat_map in Hx. destruct Hx as (k & Hk & Hx). exact (IH k Hk x Hx).
      - eapply placed_other; eassumption. }
    assert (Q : forall c, In c classes -> NoDup (numbers c)). { intros c Hc. apply (@ok_numbers c []). apply all_classes_ok; [exact Hc|intros []]. }
    destruct Hp; cbn [it_class]; try (apply Q; first [apply simple_in; assumption|apply inner_in; assumption|apply container_in; assumption]). assumption.
  - intros t. eapply perm_trans; [apply B3|]. rewrite (entries_made t Hmd). apply Permutation_refl.
Qed.
Print Assumptions C60_tree_restored.

(** A task with two commands inside its file, and a subsystem in a subsystem: both modes. *)
Definition z_ : val := VStr [48].
Definition x_hdr (uuid name : list N) : list val := [VStr [51]; VList [VStr [49]; z_; VStr uuid]; Spec_Misc.quoted name; locale_list [(u "ru"%string, name)] []; Spec_Misc.quoted (u "note"%string); z_].
Definition x_task_u : list N := Eval vm_compute in u "b2f1c8a0-1111-2222-3333-444455556661"%string.
Definition x_cmd1_u : list N := Eval vm_compute in u "b2f1c8a0-1111-2222-3333-444455556662"%string.
Definition x_cmd2_u : list N := Eval vm_compute in u "b2f1c8a0-1111-2222-3333-444455556663"%string.
Definition x_sub1_u : list N := Eval vm_compute in u "b2f1c8a0-1111-2222-3333-444455556664"%string.
Definition x_sub2_u : list N := Eval vm_compute in u "b2f1c8a0-1111-2222-3333-444455556665"%string.
Definition x_task_c : class := Eval vm_compute in match find (fun c => str_eqb (u "Task"%string) (c_name c)) classes with Some c => c | None => data_processor end.
Definition x_cmd_c : class := Eval vm_compute in match find (fun c => str_eqb (u "TaskCommand"%string) (c_name c)) classes with Some c => c | None => data_processor end.
Definition x_sub_c : class := Eval vm_compute in match find (fun c => str_eqb (u "Subsystem"%string) (c_name c)) classes with Some c => c | None => data_processor end.
Definition x_tname : list N := Eval vm_compute in u "Задача"%string.
Definition x_cname1 : list N := Eval vm_compute in u "Взять"%string.
Definition x_cname2 : list N := Eval vm_compute in u "Готово"%string.
Definition x_sname1 : list N := Eval vm_compute in u "Работа"%string.
Definition x_sname2 : list N := Eval vm_compute in u "Отчеты"%string.
Definition x_cmd (uuid name : list N) : list val := [VList [VStr [49]; VList [z_; z_; z_; VList [z_; z_; VList [z_; z_; z_; z_; z_; z_; z_; z_; z_; VList (x_hdr uuid name)]]]; z_]].
Definition x_cmd1 : list val := Eval vm_compute in x_cmd x_cmd1_u x_cname1.
Definition x_cmd2 : list val := Eval vm_compute in x_cmd x_cmd2_u x_cname2.
Definition x_type (s : string) : list N := match dget (u s) type_table with Some v => v | None => [] end.
Definition x_empty : group := Eval vm_compute in mkgroup (x_type "Template") [48] [] [].
Definition x_fields : group := Eval vm_compute in mkgroup (u "8ee25837-0000-0000-0000-000000000000"%string) [49] [VList [VStr [53]; z_]] [].
Definition x_tgs : list group := Eval vm_compute in [x_fields; x_empty; mkgroup (x_type "TaskCommand") [50] [VList x_cmd1; VList x_cmd2] []].
Definition x_tb : val := Eval vm_compute in VList [VStr [55]; VList (x_hdr x_task_u x_tname)].
Definition x_task : list val := Eval vm_compute in [list_val (VStr [49]) x_tb [51] x_tgs []].
Definition x_sub (uuid name : list N) (gs : list group) : list val := [list_val (VStr [49]) (VList [VStr [55]; VList (x_hdr uuid name)]) (str_of_int (Z.of_nat (length gs))) gs []].
Definition x_sgs : list group := Eval vm_compute in [mkgroup (x_type "Subsystem") [49] [VStr x_sub2_u] []].
Definition x_sub1 : list val := Eval vm_compute in x_sub x_sub1_u x_sname1 x_sgs.
Definition x_sub2 : list val := Eval vm_compute in x_sub x_sub2_u x_sname2 [].
Definition bfile (d : list val) : tree := TFile (snd (brace_file_write Posix d [])).
Definition x_src : folder :=
  [(x_task_u, bfile x_task); (dotted x_task_u [53], TFile Props_Payload.ex_help_bytes);
   (dotted x_cmd1_u [50], TDir [(s_info, TFile Props_Stage.ex_brace); (s_text, TFile Props_Obj.om_mod1)]);
   (x_sub1_u, bfile x_sub1); (x_sub2_u, bfile x_sub2)].
Definition x_items : list item :=
  [Item x_task_c x_task_u x_tname false x_task [Item x_cmd_c x_cmd1_u x_cname1 true x_cmd1 []; Item x_cmd_c x_cmd2_u x_cname2 true x_cmd2 []];
   Item x_sub_c x_sub1_u x_sname1 false x_sub1 [Item x_sub_c x_sub2_u x_sname2 false x_sub2 []]].
Definition no_dec (t uuid : list N) : res (list N * folder * list (list N * list (child (list N * folder)))) := Err ExtExc.
Definition no_enc (i : info folder) : res (option val * list written) := Err ExtExc.
Lemma x_named uuid name : forallb (fun c => negb (c =? 46) && negb (c =? 47)) name = true -> uuid <> [] -> named (fun _ => true) uuid name.
Proof.
  intros H Hu. rewrite forallb_forall in H. split; [intros Hi; specialize (H _ Hi); discriminate|]. split; [intros Hi; specialize (H _ Hi); discriminate|]. auto.
Qed.
Lemma x_in_file uuid d bs : dget uuid x_src = Some (TFile bs) -> brace_bytes Posix d bs -> in_file Posix x_src uuid d.
Proof. intros H1 H2. exists bs. auto. Qed.
Lemma x_cmd_at alnum uuid name : dget (dotted uuid [50]) x_src = None \/ uuid = x_cmd1_u -> object_at Posix alnum x_cmd_c x_src uuid name [(u "ru"%string, name)] (u "note"%string) (x_cmd uuid name) (x_hdr uuid name).
Proof.
  intros Hm. constructor; [reflexivity|reflexivity|unfold x_hdr; do 6 eexists; reflexivity|apply nodup_strs; reflexivity|intros p []|].
  intros m n [E|[]]. assert (n = [50]) as -> by congruence. destruct Hm as [-> | ->]; [exact I|].
  change (module_entry Posix false (Some (TDir [(s_info, TFile Props_Stage.ex_brace); (s_text, TFile Props_Obj.om_mod1)]))).
  pose proof Props_Obj.C51_hypotheses_met as (_ & _ & H). apply (H (u "obj"%string) [48]). left. reflexivity.
Qed.
Lemma x_sub_at alnum uuid name gs : (forall n, In n [[48]; [49]] -> dget (dotted uuid n) x_src = None) ->
  object_at Posix alnum x_sub_c x_src uuid name [(u "ru"%string, name)] (u "note"%string) (x_sub uuid name gs) (x_hdr uuid name).
Proof.
  intros Hn. constructor; [reflexivity|reflexivity|unfold x_hdr; do 6 eexists; reflexivity|apply nodup_strs; reflexivity| |intros m n []].
  intros p [<-|[<-|[]]]; cbn [entry_ok part_num]; rewrite Hn by (cbn; auto); [exists None; constructor|left; reflexivity].
Qed.
Lemma x_different xs : NoDup (map it_name xs) -> NoDup (map it_uuid xs) -> different (fun s => s) xs.
Proof.
  intros H1 H2. split.
  - apply (NoDup_map_inv snd). rewrite map_map. exact H1.
  - intros t. clear H1. induction xs as [|x xs IH]; [constructor|]. cbn [map] in H2. apply NoDup_cons_iff in H2. destruct H2 as [N1 N2]. cbn [filter]. destruct (str_eqb t (it_type x)); [|auto]. cbn [map]. constructor; [|auto].
    intros Hi. apply N1. apply in_map_iff in Hi. destruct Hi as (y & E & Hy). apply filter_In in Hy. rewrite <- E. apply in_map. apply Hy.
Qed.
Example C60_hypotheses_met : forall alnum auto, 
  (forall x, In x x_items -> placed Posix alnum (fun _ => true) (fun s => s) auto s_803 x_src no_dec no_enc x /\ it_inner x = false) /\ different (fun s => s) x_items /\
  NoDup (map it_uuid (flat_map below x_items)) /\ (forall x, In x (flat_map below x_items) -> ~ In 46 (it_uuid x)) /\ length (flat_map (it_files x_src) (flat_map below x_items)) = 5%nat.
Proof.
  intros alnum auto. split; [|split; [|split; [|split]]].
  - intros x [<-|[<-|[]]]; (split; [|reflexivity]).
    + eapply placed_container with (gs := x_tgs) (b := x_tb) (locs := [(u "ru"%string, x_tname)]) (comment := u "note"%string) (hdr := x_hdr x_task_u x_tname).
      * vm_compute. tauto.
      * apply x_named; [reflexivity|discriminate].
      * constructor; [reflexivity|reflexivity|unfold x_hdr; do 6 eexists; reflexivity|apply nodup_strs; reflexivity| |].
        -- intros p [<-|[]]. exists (Some Props_Payload.ex_content). apply Props_Payload.C54_hypotheses_met.
        -- intros m n [E|[E|[]]]; assert (n = [54] \/ n = [55]) as [-> | ->] by (first [left; congruence|right; congruence]); exact I.
      * eapply x_in_file; [reflexivity|brace_solve].
      * reflexivity.
      * split; [reflexivity|repeat constructor].
      * apply nodup_strs. reflexivity.
      * left. reflexivity.
      * apply ls_unknown; [reflexivity|]. eapply ls_alone; [reflexivity|constructor|].
        apply (@ls_objects Posix alnum (fun _ => true) auto x_src _ (u "TaskCommand"%string) [Item x_cmd_c x_cmd1_u x_cname1 true x_cmd1 []; Item x_cmd_c x_cmd2_u x_cname2 true x_cmd2 []] [] []);
          [reflexivity|discriminate|repeat constructor|reflexivity|intros _; split; [repeat constructor|split; reflexivity]|constructor].
      * apply x_different; apply nodup_strs; reflexivity.
      * intros x [<-|[<-|[]]].
        -- eapply placed_inner; [vm_compute; tauto|apply x_named; [reflexivity|discriminate]|change x_cmd1 with (x_cmd x_cmd1_u x_cname1); apply x_cmd_at; right; reflexivity|].
           apply scalars_by. vm_compute. reflexivity.
        -- eapply placed_inner; [vm_compute; tauto|apply x_named; [reflexivity|discriminate]|change x_cmd2 with (x_cmd x_cmd2_u x_cname2); apply x_cmd_at; left; reflexivity|].
           apply scalars_by. vm_compute. reflexivity.
    + eapply placed_container with (gs := x_sgs) (b := VList [VStr [55]; VList (x_hdr x_sub1_u x_sname1)]).
      * vm_compute. tauto.
      * apply x_named; [reflexivity|discriminate].
      * change x_sub1 with (x_sub x_sub1_u x_sname1 x_sgs). apply x_sub_at. intros n [<-|[<-|[]]]; reflexivity.
      * eapply x_in_file; [reflexivity|brace_solve].
      * reflexivity.
      * split; [reflexivity|repeat constructor].
      * apply nodup_strs. reflexivity.
      * left. reflexivity.
      * apply (@ls_objects Posix alnum (fun _ => true) auto x_src _ (u "Subsystem"%string) [Item x_sub_c x_sub2_u x_sname2 false x_sub2 []] [] []);
          [reflexivity|discriminate|repeat constructor|reflexivity|intros _; split; [repeat constructor|split; reflexivity]|constructor].
      * apply x_different; apply nodup_strs; reflexivity.
      * intros x [<-|[]]. eapply placed_container with (gs := []) (b := VList [VStr [55]; VList (x_hdr x_sub2_u x_sname2)]).
        -- vm_compute. tauto.
        -- apply x_named; [reflexivity|discriminate].
        -- change x_sub2 with (x_sub x_sub2_u x_sname2 []). apply x_sub_at. intros n [<-|[<-|[]]]; reflexivity.
        -- eapply x_in_file; [reflexivity|brace_solve].
        -- reflexivity.
        -- split; [reflexivity|constructor].
        -- constructor.
        -- left. reflexivity.
        -- constructor.
        -- split; [constructor|intros t; constructor].
        -- intros x [].
  - apply x_different; apply nodup_strs; reflexivity.
  - apply nodup_strs. reflexivity.
  - assert (K : forallb (fun x => forallb (fun c => negb (c =? 46)) (it_uuid x)) (flat_map below x_items) = true) by (vm_compute; reflexivity). rewrite forallb_forall in K. intros x Hx Hi. specialize (K x Hx). rewrite forallb_forall in K. specialize (K 46 Hi). discriminate.
  - vm_compute. reflexivity.
Qed.

(** ** What does not hold *)
(** A list that names the object itself is extracted without end. *)
Theorem C60_self_inclusion_refuted : forall P (dec : list N -> list N -> res (list N * P * list (list N * list (child (list N * P))))) t uuid name own sched,
  dec t uuid = Ok (name, own, [(t, [CFile _ uuid])]) -> schedule sched -> forall fuel, xloop dec fuel 0 sched [] [mkxtask t uuid []] = Err Timeout.
Proof.
  intros P dec t uuid name own sched Hd Hs.
  assert (K : forall fuel n p ss, (forall q o, In (q, o) ss -> (length q <= length p)%nat) -> xloop dec fuel n sched ss [mkxtask t uuid p] = Err Timeout).
  { induction fuel as [|fuel IH]; intros n p ss Hl; [reflexivity|]. cbn [xloop]. assert (sched n [mkxtask t uuid p] = [mkxtask t uuid p]) as -> by (apply Permutation_length_1_inv; apply Permutation_sym; apply Hs).
    cbn [xround]. unfold run_xtask. cbn [xt_type xt_uuid xt_path]. rewrite Hd. cbn [bind new_sources flat_map snd fst app put_sources].
    assert (exists_path (p ++ [(t, name)]) ss = false) as ->.
    { apply exists_path_false. intros Hi. apply in_map_iff in Hi. destruct Hi as ([q o] & E & Hi). cbn [fst] in E. subst q. specialize (Hl _ _ Hi). rewrite app_length in Hl. cbn [length] in Hl. lia. }
    cbn [bind new_tasks flat_map snd fst app]. apply IH. intros q o Hi. apply in_app_or in Hi. rewrite app_length. cbn [length]. destruct Hi as [Hi|[Hi|[]]]; [specialize (Hl _ _ Hi); lia|]. injection Hi as <- _. rewrite app_length. cbn [length]. lia. }
  intros fuel. apply K. intros q o [].
Qed.
Print Assumptions C60_self_inclusion_refuted.
(** Two objects of one type and one name in one list: the extraction fails. *)
Theorem C60_same_name_refuted : forall P (dec : list N -> list N -> res (list N * P * list (list N * list (child (list N * P))))) t u1 u2 name own1 own2 k1 k2 sched fuel,
  dec t u1 = Ok (name, own1, k1) -> dec t u2 = Ok (name, own2, k2) -> schedule sched ->
  exists e, xloop dec fuel 0 sched [] [mkxtask t u1 []; mkxtask t u2 []] = Err e.
Proof.
  intros P dec t u1 u2 name own1 own2 k1 k2 sched fuel H1 H2 Hs. destruct fuel as [|fuel]; [exists Timeout; reflexivity|]. cbn [xloop].
  assert (K : forall ua ub na nb ka kb, dec t ua = Ok (name, na, ka) -> dec t ub = Ok (name, nb, kb) -> exists e, xround dec [mkxtask t ua []; mkxtask t ub []] [] = Err e).
  { clear. intros ua ub na nb ka kb Ha Hb. cbn [xround]. unfold run_xtask at 1. cbn [xt_type xt_uuid xt_path app]. rewrite Ha. cbn [bind]. destruct (put_sources (new_sources [(t, name)] na ka) []) as [ss|e] eqn:E; [|exists e; reflexivity]. cbn [bind].
    assert (Hin : exists_path [(t, name)] ss = true).
    { assert (M : forall (Q : Type) (new s0 s1 : sources Q), put_sources new s0 = Ok s1 -> forall p, exists_path p s0 = true -> exists_path p s1 = true).
      { clear. intros Q. induction new as [|[p0 o0] new IH]; intros s0 s1 H p Hp; [injection H as <-; exact Hp|]. cbn [put_sources] in H. destruct (exists_path p0 s0); [discriminate|]. eapply IH; [exact H|]. unfold exists_path in *. rewrite existsb_app, Hp. reflexivity. }
      unfold new_sources in E. cbn [put_sources] in E. change (exists_path [(t, name)] (@nil (path * P))) with false in E. cbn [app] in E. eapply M; [exact E|]. unfold exists_path. cbn [existsb fst]. rewrite (proj2 (path_eqb_spec _ _) eq_refl). reflexivity. }
    unfold run_xtask. cbn [xt_type xt_uuid xt_path app]. rewrite Hb. cbn [bind]. unfold new_sources. cbn [put_sources]. rewrite Hin. exists ExtExc. reflexivity. }
  pose proof (Hs 0%nat [mkxtask t u1 []; mkxtask t u2 []]) as HP. apply Permutation_sym, Permutation_length_2_inv in HP. destruct HP as [-> | ->].
  - destruct (K u1 u2 _ _ _ _ H1 H2) as [e E]. exists e. rewrite E. reflexivity.
  - destruct (K u2 u1 _ _ _ _ H2 H1) as [e E]. exists e. rewrite E. reflexivity.
Qed.
Print Assumptions C60_same_name_refuted.
