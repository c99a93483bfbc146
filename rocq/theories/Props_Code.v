(** C30-C32, C47: include areas of modules.  Model: OrgCode.v.  Vocabulary: Spec_Code.v. *)
From Coq Require Import String.
From Verif Require Import PyBase PyInt PyText Paths OrgCode Spec_Code OrgCodeProofs OrgCodePaths OrgCodePack OrgCodeSplit.
Open Scope list_scope.
Open Scope N_scope.

(** ** C30 *)
(** Splitting a well nested module and packing it again gives back its text.  The sources are the
    folder [dest]; the module is the file [file] in its folder [path]; areas and module lie in
    distinct files; the file of a read-only area (includr) must hold what was split off. *)
Theorem C30_round_trip : forall table dest path file m ns st,
  well_nested table None true m -> proper_lines (flatten m) -> names m ns -> ~ In s_root ns ->
  is_abs path = false -> ~ In 47 file -> (forall n, In n ns -> ~ In 47 (target table n)) ->
  NoDup ((enter (enter [] dest) path ++ [file]) :: map (include_file table false (enter [] dest) path) ns) ->
  exists a st', unpack (text_of m) = Ok a /\ unpack_code_file dest path file table (text_of m) st = Ok st' /\
    ((forall n data, In (n, (data, Some Includr)) a -> dget (written (include_file table false (enter [] dest) path n)) st = Some data) ->
     forall fuel, (length ns < fuel)%nat -> pack_file fuel st' dest path file table None = Ok (text_of m)).
Proof. exact round_trip. Qed.
Print Assumptions C30_round_trip.

Lemma rfind_some p s : occurs_in p s -> rfind_sub p s <> None.
Proof.
  intros (a & b & ->). induction a as [|c a IH].
  - cbn [app]. destruct (p ++ b) as [|c s] eqn:E.
    + apply app_eq_nil in E. destruct E as [-> ->]. discriminate.
    + cbn [rfind_sub]. destruct (rfind_sub p s); [discriminate|]. rewrite <- E, starts_app. discriminate.
  - cbn [app rfind_sub]. destruct (rfind_sub p (a ++ p ++ b)); [discriminate|congruence].
Qed.
Lemma unmarked_b l : rfind_sub (32 :: s_mark) l = None -> ~ marked l.
Proof. intros H [Ho _]. exact (@rfind_some _ _ Ho H). Qed.

Definition ln (s : string) : list N := u s ++ [10].
Definition ex_table : list (list N * list N) := [(u "Общее"%string, u "core_Общее"%string)].
(** a module with an ordinary region, an area in a shared folder under a directive, an area inside
    it, a read-only area and an area of the module's folder; the last line has no newline *)
Definition ex_module : code := Eval vm_compute in
  Region (ln "#Область Сервис") (Line (ln "Перем А;") (Area (ln "  #Область include_Общее //&НаКлиенте")
      (Line (ln "Процедура Б()") (Line (ln "&НаКлиенте //DynamicDirective 1") (Area (ln "#Область include_core_util_lib") (Line (ln "В = 1;") End) (ln "#КонецОбласти") End)))
      (ln "  #КонецОбласти // Общее") End)) (ln "#КонецОбласти")
  (Area (ln "#Область includr_core_ro") (Line (ln "Г = 2;") End) (ln "#КонецОбласти")
  (Area (ln "#Область include_local") End (ln "#КонецОбласти") (Line (u "Конец") End))).
Definition ex_names : list (list N) := [u "Общее"%string; u "core_util_lib"%string; u "core_ro"%string; u "local"%string].

Lemma nodup_strs (l : list (list N)) : (fix nd l := match l with [] => true | x :: r => negb (existsb (str_eqb x) r) && nd r end) l = true -> NoDup l.
Proof.
  induction l as [|x l IH]; [constructor|]. intros H. apply andb_true_iff in H. destruct H as [H1 H2]. constructor; [|exact (IH H2)].
  intros Hin. apply negb_true_iff in H1. assert (existsb (str_eqb x) l = true); [|congruence]. apply existsb_exists. exists x. split; [exact Hin|apply str_eqb_refl].
Qed.
Lemma header_intro l (w : bool) name d r : name <> [] -> mem_ch 32 name = false -> strip l = (if w then s_include else s_includr) ++ r ->
  match d with None => strip r = name | Some d => strip r = name ++ s_sep ++ d /\ d <> [] /\ rfind_sub s_sep d = None end -> header l w name d.
Proof.
  intros Hn Hs E Hr. split; [exact Hn|]. split; [intros H; apply mem_ch_in in H; congruence|]. exists r. split; [exact E|].
  destruct d as [d|]; [|exact Hr]. destruct Hr as (H1 & H2 & H3). split; [exact H1|]. split; [exact H2|]. intros H. exact (@rfind_some _ _ H H3).
Qed.
Lemma plain_intro dd l : starts s_area (strip l) = false -> starts s_end (strip l) = false -> rfind_sub (32 :: s_mark) l = None ->
  starts s_mark (strip l) = false -> plain_line dd l.
Proof. intros H1 H2 H3 H4. unfold plain_line, opens, closes. split; [congruence|]. split; [congruence|]. left. split; [apply unmarked_b; exact H3|right; exact H4]. Qed.

Example C30_ex_well_nested : well_nested ex_table None true ex_module.
Proof.
  unfold ex_module.
  assert (Hu : forall l, rfind_sub (32 :: s_mark) l = None -> ~ marked l) by exact unmarked_b.
  apply wn_region; try reflexivity; try (apply Hu; reflexivity).
  - apply wn_line; [apply plain_intro; reflexivity|].
    apply wn_area with (w := true) (name := u "Общее"%string) (d := Some (u "&НаКлиенте"%string)); try reflexivity; try (apply Hu; reflexivity); try apply wn_end.
    + eapply header_intro; [discriminate|reflexivity|reflexivity|]. vm_compute. repeat split. discriminate.
    + left. reflexivity.
    + apply wn_line; [apply plain_intro; reflexivity|]. apply wn_line.
      * split; [unfold opens; vm_compute; discriminate|]. split; [unfold closes; vm_compute; discriminate|]. right.
        exists (u "&НаКлиенте"%string), (u " 1"%string ++ [10]). split; [reflexivity|]. split; [discriminate|]. split; [reflexivity|]. split; [left; reflexivity|].
        intros H. apply (@rfind_some _ _ H). reflexivity.
      * apply wn_area with (w := true) (name := u "core_util_lib"%string) (d := None); try reflexivity; try (apply Hu; reflexivity); try apply wn_end.
        -- eapply header_intro; [discriminate|reflexivity|reflexivity|reflexivity].
        -- right. apply mem_ch_in. reflexivity.
        -- apply wn_line; [apply plain_intro; reflexivity|apply wn_end].
  - apply wn_area with (w := false) (name := u "core_ro"%string) (d := None); try reflexivity; try (apply Hu; reflexivity).
    + eapply header_intro; [discriminate|reflexivity|reflexivity|reflexivity].
    + right. apply mem_ch_in. reflexivity.
    + apply wn_line; [apply plain_intro; reflexivity|apply wn_end].
    + apply wn_area with (w := true) (name := u "local"%string) (d := None); try reflexivity; try (apply Hu; reflexivity); try apply wn_end.
      * eapply header_intro; [discriminate|reflexivity|reflexivity|reflexivity].
      * left. reflexivity.
      * apply wn_line; [apply plain_intro; reflexivity|apply wn_end].
Qed.
Example C30_ex_names : names ex_module ex_names.
Proof.
  unfold ex_module, ex_names.
  change [u "Общее"%string; u "core_util_lib"%string; u "core_ro"%string; u "local"%string]
    with (((u "Общее"%string) :: ([u "core_util_lib"%string] ++ [])) ++ (u "core_ro"%string :: [] ++ (u "local"%string :: [] ++ []))).
  apply nm_region.
  - apply nm_line. apply nm_area with (w := true) (d := Some (u "&НаКлиенте"%string)); [eapply header_intro; [discriminate|reflexivity|reflexivity|vm_compute; repeat split; discriminate]| |apply nm_end].
    apply nm_line, nm_line. apply nm_area with (w := true) (d := None) (ns := []) (ns' := []); [eapply header_intro; [discriminate|reflexivity|reflexivity|reflexivity]|apply nm_line; apply nm_end|apply nm_end].
  - apply nm_area with (w := false) (d := None); [eapply header_intro; [discriminate|reflexivity|reflexivity|reflexivity]|apply nm_line, nm_end|].
    apply nm_area with (w := true) (d := None); [eapply header_intro; [discriminate|reflexivity|reflexivity|reflexivity]|apply nm_end|apply nm_line, nm_end].
Qed.
Definition ex_dest : list N := u "/p/src"%string.
Definition ex_path : list N := u "Catalog/Товары"%string.
Definition ex_file : list N := u "Module.bsl"%string.
Definition ex_store : store := [(u "/p/core/ro.bsl"%string, ln "Г = 2;")].
Example C30_ex_files : map written (map (include_file ex_table false (enter [] ex_dest) ex_path) ex_names) =
  [u "/p/core/Общее.bsl"%string; u "/p/core/util/lib.bsl"%string; u "/p/core/ro.bsl"%string; u "/p/src/Catalog/Товары/local.bsl"%string].
Proof. reflexivity. Qed.
Example C30_ex_unpack : exists st', unpack_code_file ex_dest ex_path ex_file ex_table (text_of ex_module) ex_store = Ok st' /\
  dget (u "/p/core/util/lib.bsl"%string) st' = Some (ln "В = 1;") /\ pack_file 5 st' ex_dest ex_path ex_file ex_table None = Ok (text_of ex_module).
Proof. eexists. split; [vm_compute; reflexivity|]. split; vm_compute; reflexivity. Qed.

(** Without these conditions it fails.  A name without underscore inside an area of another folder
    is written next to the module but looked up next to the area: packing stops. *)
Definition nested_text : list N := Eval vm_compute in
  ln "#Область include_core_x" ++ ln "#Область include_y" ++ ln "А = 1;" ++ ln "#КонецОбласти" ++ ln "#КонецОбласти".
Theorem C30_nested_plain_name_refuted : exists st', unpack_code_file ex_dest ex_path ex_file [] nested_text [] = Ok st' /\
  dget (u "/p/src/Catalog/Товары/y.bsl"%string) st' = Some (ln "А = 1;") /\
  forall fuel, pack_file (S (S (S fuel))) st' ex_dest ex_path ex_file [] None = Err ExtExc.
Proof. eexists. split; [vm_compute; reflexivity|]. split; [vm_compute; reflexivity|]. intros fuel. reflexivity. Qed.
Print Assumptions C30_nested_plain_name_refuted.
(** Two areas with the same name: the last one replaces the first. *)
Definition twice_text : list N := Eval vm_compute in
  ln "#Область include_y" ++ ln "А = 1;" ++ ln "#КонецОбласти" ++ ln "#Область include_y" ++ ln "А = 2;" ++ ln "#КонецОбласти".
Theorem C30_same_name_twice_refuted : exists st', unpack_code_file ex_dest ex_path ex_file [] twice_text [] = Ok st' /\
  forall fuel, pack_file (S (S fuel)) st' ex_dest ex_path ex_file [] None =
    Ok (ln "#Область include_y" ++ ln "А = 2;" ++ ln "#КонецОбласти" ++ ln "#Область include_y" ++ ln "А = 2;" ++ ln "#КонецОбласти").
Proof. eexists. split; [vm_compute; reflexivity|]. intros fuel. reflexivity. Qed.
Print Assumptions C30_same_name_twice_refuted.
(** A directive outside any area with a directive is lost. *)
Theorem C30_root_directive_lost_refuted : exists st', unpack_code_file ex_dest ex_path ex_file [] (ln "&НаКлиенте //DynamicDirective") [] = Ok st' /\
  forall fuel, pack_file (S fuel) st' ex_dest ex_path ex_file [] None = Ok (ln "//DynamicDirective").
Proof. eexists. split; [vm_compute; reflexivity|]. intros fuel. reflexivity. Qed.
Print Assumptions C30_root_directive_lost_refuted.
(** An area named "root" replaces the beginning of the module. *)
Theorem C30_area_named_root_refuted : exists st', unpack_code_file ex_dest ex_path ex_file [] (ln "А = 1;" ++ ln "#Область include_root" ++ ln "Б = 2;" ++ ln "#КонецОбласти") [] = Ok st' /\
  forall fuel, pack_file (S fuel) st' ex_dest ex_path ex_file [] None = Ok (ln "Б = 2;" ++ ln "#КонецОбласти").
Proof. eexists. split; [vm_compute; reflexivity|]. intros fuel. reflexivity. Qed.
Print Assumptions C30_area_named_root_refuted.

(** ** C31 *)
(** Any text that is split at all: there is an owner for every line such that each area holds
    exactly the lines it owns, in order, and the areas are the module itself and the named ones. *)
Theorem C31_no_line_lost : forall text a, unpack text = Ok a -> (forall l, In l (lines text) -> ~ marked l) ->
  NoDup (s_root :: include_names (lines text)) ->
  map fst a = s_root :: include_names (lines text) /\
  exists owners, length owners = length (lines text) /\ (forall o, In o owners -> In o (map fst a)) /\
    forall k data kind, In (k, (data, kind)) a -> data = concat (given k owners (lines text)).
Proof.
  intros text a H Hm Hnd. unfold unpack in H. destruct (unpack_lines (lines text) _) as [s'|e] eqn:E; [|discriminate]. injection H as <-.
  destruct (split_owners (lines text) start_ok E Hnd) as (HK & owners & H1 & H2 & H3 & H4). unfold dkeys in *. cbn [u_areas map fst app] in *.
  split; [exact HK|]. exists owners. split; [exact H1|]. split; [exact H2|].
  assert (Hdrop : forall k os ls, (forall l, In l ls -> ~ marked l) -> map drop_directive (given k os ls) = given k os ls).
  { intros k os. induction os as [|o os IH]; intros ls Hls; [reflexivity|]. destruct ls as [|l ls]; [reflexivity|]. cbn [given].
    destruct (str_eqb o k); cbn [map]; rewrite IH by (intros x Hx; apply Hls; right; exact Hx); [|reflexivity]. rewrite drop_unmarked by (apply Hls; left; reflexivity). reflexivity. }
  intros k data kind Hin.
  assert (Hget : dget k (u_areas s') = Some (data, kind)).
  { assert (Hn : NoDup (map fst (u_areas s'))) by (rewrite HK; exact Hnd). clear - Hin Hn. induction (u_areas s') as [|[k' v'] l IH]; [contradiction|]. cbn in *.
    inversion Hn; subst. destruct Hin as [Ei|Hin]; [injection Ei as -> ->; rewrite str_eqb_refl; reflexivity|].
    destruct (str_eqb k k') eqn:Ek; [|apply IH; assumption]. apply str_eqb_spec in Ek. subst. exfalso. apply H1. apply in_map_iff. exists (k', (data, kind)). auto. }
  assert (Hk : In k (map fst (u_areas s'))) by (apply in_map_iff; exists (k, (data, kind)); auto). rewrite HK in Hk.
  destruct Hk as [<-|Hk].
  - rewrite (H3 k_root [] None eq_refl) in Hget. injection Hget as <- _. rewrite Hdrop by exact Hm. reflexivity.
  - destruct (H4 k Hk) as [t Ht]. rewrite Ht in Hget. injection Hget as <- _. rewrite Hdrop by exact Hm. reflexivity.
Qed.
Print Assumptions C31_no_line_lost.
(** In a well nested module an area holds the lines between its header and its end, without the
    bodies of the areas inside. *)
Theorem C31_bodies : forall table m, well_nested table None true m -> proper_lines (flatten m) -> (forall l, In l (flatten m) -> ~ marked l) ->
  NoDup (s_root :: include_names (flatten m)) ->
  exists a, unpack (text_of m) = Ok a /\
    map (fun e => (fst e, fst (snd e))) a = (s_root, concat (own_lines m)) :: map (fun e => (fst e, concat (snd e))) (area_lines m).
Proof.
  intros table m Hw Hp Hm Hnd.
  assert (Hk : keys m = include_names (flatten m)).
  { clear Hp Hm Hnd. unfold keys, include_names. induction Hw as [dd here|dd here l rest Hl Hw IH|dd here o body c rest Ho H1 H2 Hc Hmo Hmc Hb IHb Hr IHr|dd here o body c rest w name d Hh Hc Hmo Hmc Hn Hb IHb Hr IHr]; cbn [areas_of flatten filter map fst].
    - reflexivity.
    - assert (opens_include l = false) as ->; [|exact IH]. apply is_area_closed. destruct (is_area (strip l)) eqn:E; [|reflexivity]. destruct Hl as [Hl _]. exfalso. apply Hl. exact (is_area_starts _ E).
    - assert (opens_include o = false) as -> by (unfold opens_include; rewrite H1, H2; reflexivity). rewrite filter_app, !map_app. cbn [filter].
      assert (opens_include c = false) as -> by (apply is_area_closed, closes_no_area; exact Hc). congruence.
    - destruct (header_parts Hh) as [Ek _]. destruct (is_area_opens _ Ek) as [-> E2]. cbn [map]. rewrite filter_app, !map_app. cbn [filter].
      assert (opens_include c = false) as -> by (apply is_area_closed, closes_no_area; exact Hc). rewrite E2. congruence. }
  eexists. split; [apply (@unpack_text table m Hw Hp); rewrite Hk; exact Hnd|]. cbn [map fst snd]. rewrite (own_own_lines Hw Hm), (areas_area_lines Hw Hm). reflexivity.
Qed.
Print Assumptions C31_bodies.
Example C31_ex : exists a, unpack nested_text = Ok a /\ NoDup (s_root :: include_names (lines nested_text)) /\ (forall l, In l (lines nested_text) -> ~ marked l) /\
  map (fun e => (fst e, fst (snd e))) a = [(s_root, ln "#Область include_core_x" ++ ln "#КонецОбласти"); (u "core_x"%string, ln "#Область include_y" ++ ln "#КонецОбласти"); (u "y"%string, ln "А = 1;")].
Proof.
  eexists. split; [vm_compute; reflexivity|]. split; [apply nodup_strs; reflexivity|]. split; [|reflexivity].
  apply Forall_forall. vm_compute lines. repeat (apply Forall_cons; [apply unmarked_b; reflexivity|]). apply Forall_nil.
Qed.
(** with a repeated name lines are lost *)
Theorem C31_repeated_name_loses_refuted : exists a, unpack twice_text = Ok a /\ forall k data kind, In (k, (data, kind)) a -> ~ occurs_in (ln "А = 1;") data.
Proof.
  eexists. split; [vm_compute; reflexivity|]. intros k data kind Hin Ho.
  assert (H : rfind_sub (ln "А = 1;") data = None) by (destruct Hin as [E|[E|[]]]; injection E as <- <- <-; vm_compute; reflexivity).
  exact (@rfind_some _ _ Ho H).
Qed.
Print Assumptions C31_repeated_name_loses_refuted.

(** ** C32 *)
(** [parse_include_path] and the folder of the sources give exactly the file of the specification. *)
Theorem C32_include_file : forall name path table (versions : bool) dest p f, is_abs path = false -> ~ In 47 (target table name) ->
  parse_include_path name path table versions = (p, f) ->
  file_key dest p f = written (include_file table versions (enter [] dest) path name).
Proof.
  intros name path table versions dest p f Hp Hs E. pose proof (@include_place name path table versions dest Hp Hs) as H. cbv zeta in H. rewrite E in H. exact H.
Qed.
Print Assumptions C32_include_file.
(** The three shapes in the statement. *)
Theorem C32_no_underscore : forall name path table, ~ In 95 (target table name) ->
  parse_include_path name path table false = (path, target table name ++ s_bsl) /\
  parse_include_path name path table true = (u "../.."%string, target table name ++ s_bsl).
Proof. intros name path table H. apply (@parse_one name path table). apply split_ch_nosep. exact H. Qed.
Print Assumptions C32_no_underscore.
Definition ordinary (e : list N) : Prop := e <> [] /\ ~ In 47 e /\ ~ In 95 e /\ e <> [46] /\ e <> [46; 46].
Lemma walk_ordinary f e : ordinary e -> walk f e = f ++ [e].
Proof.
  intros (H1 & _ & _ & H2 & H3). rewrite <- (rev_involutive f). rewrite <- astep_walk. unfold astep. destruct e as [|c e]; [congruence|].
  destruct (str_eqb (c :: e) dot1) eqn:E1; [apply str_eqb_spec in E1; contradiction|]. destruct (str_eqb (c :: e) dot2) eqn:E2; [apply str_eqb_spec in E2; contradiction|]. reflexivity.
Qed.
Lemma fold_walk_ordinary l f : Forall ordinary l -> fold_left walk (map climb l) f = f ++ l.
Proof.
  intros H. revert f. induction H as [|e l He Hl IH]; intros f; [rewrite app_nil_r; reflexivity|]. cbn [map fold_left].
  assert (climb e = e) as -> by (destruct He as (Hne & _); destruct e; [congruence|reflexivity]). rewrite walk_ordinary, IH by exact He. rewrite <- app_assoc. reflexivity.
Qed.
(** ordinary folder names a, b, ... and a file name c: ../a/b/.../c.bsl, never inside the sources
    unless the first folder has the name of the source folder *)
Theorem C32_outside : forall name path table parts n src up_dir, target table name = join [95] (parts ++ [n]) -> parts <> [] ->
  Forall ordinary parts -> ~ In 95 n -> ~ In 47 n ->
  include_file table false (up_dir ++ [src]) path name = up_dir ++ parts ++ [n ++ s_bsl] /\
  (hd [] parts <> src -> forall inside, include_file table false (up_dir ++ [src]) path name <> (up_dir ++ [src]) ++ inside).
Proof.
  intros name path table parts n src up_dir E Hne HF Hn Hs.
  assert (Es : split_ch 95 (target table name) = parts ++ [n]).
  { rewrite E. apply split_ch_join; [destruct parts; discriminate|]. apply Forall_app. split; [|constructor; [exact Hn|constructor]].
    eapply Forall_impl; [|exact HF]. intros x (_ & _ & H & _). exact H. }
  assert (HI : include_file table false (up_dir ++ [src]) path name = up_dir ++ parts ++ [n ++ s_bsl]).
  { unfold include_file. rewrite Es. destruct parts as [|a [|b parts]]; [congruence| |]; cbn [app].
    - rewrite removelast_last. cbn [removelast last map fold_left]. rewrite (@fold_walk_ordinary [a] up_dir HF : walk up_dir (climb a) = _). rewrite <- app_assoc. reflexivity.
    - change (a :: b :: parts ++ [n]) with ((a :: b :: parts) ++ [n]). rewrite !removelast_last, last_last, fold_walk_ordinary by exact HF. rewrite <- app_assoc. reflexivity. }
  split; [exact HI|]. intros Hsrc inside. rewrite HI, <- app_assoc. intros E2. apply app_inv_head in E2. destruct parts as [|a parts]; [congruence|]. cbn in *. injection E2 as E2 _. congruence.
Qed.
Print Assumptions C32_outside.
Example C32_ex : include_file [] false (enter [] ex_dest) ex_path (u "a_b_c"%string) = [u "p"%string; u "a"%string; u "b"%string; u "c.bsl"%string] /\
  include_file [] false (enter [] ex_dest) ex_path (u "__a_c"%string) = [u "a"%string; u "c.bsl"%string] /\
  include_file [] true (enter [] (u "/q/p/src"%string)) ex_path (u "c"%string) = [u "q"%string; u "c.bsl"%string].
Proof. split; [|split]; reflexivity. Qed.
(** a name that starts with the name of the source folder lands inside it, in any folder *)
Theorem C32_inside_sources_refuted : exists name, include_file [] false (enter [] ex_dest) ex_path name = enter [] ex_dest ++ [u "Document"%string; u "x.bsl"%string].
Proof. exists (u "src_Document_x"%string). reflexivity. Qed.
Print Assumptions C32_inside_sources_refuted.

(** ** C47 *)
(** Splitting fails exactly if at some line there have been two more closings than openings. *)
Theorem C47_split_total : forall text,
  (exists a, unpack text = Ok a) <-> (forall x y, lines text = x ++ y -> (closings x <= openings x + 1)%nat).
Proof.
  intros text. rewrite <- (@split_ok (lines text) _ start_ok). unfold unpack. split.
  - intros [a H]. destruct (unpack_lines (lines text) _) as [s|e]; [exists s; reflexivity|discriminate].
  - intros [s H]. rewrite H. eexists. reflexivity.
Qed.
Print Assumptions C47_split_total.
Theorem C47_split_error : forall text e, unpack text = Err e -> e = ExtExc.
Proof. intros text e. unfold unpack. destruct (unpack_lines (lines text) _) as [s|x] eqn:E; [discriminate|]. cbn. intros H. injection H as <-. exact (unpack_lines_err _ _ E). Qed.
Print Assumptions C47_split_error.
(** so one closing too many, and any number of areas left open, are accepted *)
Example C47_ex : (exists a, unpack (ln "#КонецОбласти" ++ ln "#Область include_x" ++ ln "А = 1;") = Ok a) /\
  unpack (ln "#КонецОбласти" ++ ln "#КонецОбласти") = Err ExtExc.
Proof. split; [eexists; vm_compute; reflexivity|vm_compute; reflexivity]. Qed.
