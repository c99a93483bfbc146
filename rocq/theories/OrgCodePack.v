(** Proofs about OrgCode.v: re-assembling a module from its files. *)
From Coq Require Import String.
From Verif Require Import PyBase PyInt PyText Paths OrgCode Spec_Code ContainerToc IndexProofs OrgCodeProofs OrgCodePaths.
Set Implicit Arguments.
Open Scope list_scope.
Open Scope N_scope.

(** ** Lines *)
Definition nlterm (x : list N) : Prop := exists y, x = y ++ [10] /\ ~ In 10 y.
Lemma proper_tl x ls : proper_lines (x :: ls) -> proper_lines ls.
Proof. intros H a y b E. apply (H (x :: a) y b). rewrite E. reflexivity. Qed.
Lemma lines_proper ls : proper_lines ls -> lines (concat ls) = ls.
Proof.
  induction ls as [|x ls IH]; intros H; [reflexivity|]. cbn [concat]. specialize (IH (proper_tl H)).
  destruct (H [] x ls eq_refl) as [(y & -> & Hy)|(-> & Hne & Hn)].
  - rewrite <- app_assoc. cbn [app]. change 10 with LF. rewrite lines_line by exact Hy. rewrite IH. reflexivity.
  - cbn [concat]. rewrite app_nil_r. rewrite lines_first by exact Hne. rewrite first_line_whole by exact Hn. reflexivity.
Qed.
Inductive sub : list (list N) -> list (list N) -> Prop :=
| sub_nil : sub [] []
| sub_skip : forall x a b, sub a b -> sub (x :: a) b
| sub_keep : forall x x' a b, (nlterm x -> nlterm x') -> (x <> [] -> ~ In 10 x -> x' <> [] /\ ~ In 10 x') -> sub a b -> sub (x :: a) (x' :: b).
Lemma sub_proper a b : sub a b -> proper_lines a -> proper_lines b.
Proof.
  induction 1 as [|x a b Hs IH|x x' a b H1 H2 Hs IH]; intros Hp.
  - exact Hp.
  - apply IH. exact (proper_tl Hp).
  - intros p y q E. destruct p as [|z p].
    + cbn in E. injection E as -> ->. destruct (Hp [] x a eq_refl) as [Hx|(Ha & Hne & Hx)].
      * left. apply H1. exact Hx.
      * right. split; [|apply H2; assumption]. subst a. inversion Hs; subst. reflexivity.
    + cbn in E. injection E as _ E. exact (IH (proper_tl Hp) p y q E).
Qed.
Lemma sub_app a b a' b' : sub a b -> sub a' b' -> sub (a ++ a') (b ++ b').
Proof. induction 1; intros H'; cbn; [exact H'|apply sub_skip; auto|apply sub_keep; auto]. Qed.
Lemma sub_all_skip a : sub a [].
Proof. induction a; constructor; assumption. Qed.
Lemma sub_same x a b : sub a b -> sub (x :: a) (x :: b).
Proof. intros H. apply sub_keep; auto. Qed.
Lemma sub_drop dd l a b : plain_line dd l -> sub a b -> sub (l :: a) (drop_directive l :: b).
Proof.
  intros (_ & _ & [[Hm _]|(d & rest & _ & _ & -> & Ha & Ho)]) H.
  - rewrite drop_unmarked by exact Hm. apply sub_same. exact H.
  - rewrite drop_marked by assumption. apply sub_keep; [| |exact H].
    + intros (y & E & Hy). destruct (@exists_last _ (s_mark ++ rest)) as (z & w & Ez); [discriminate|].
      rewrite Ez in E |- *. rewrite !app_assoc in E. apply app_inj_tail in E. destruct E as [<- ->].
      exists z. split; [reflexivity|]. intros Hin. apply Hy. apply in_or_app. right. exact Hin.
    + intros _ Hn. split; [discriminate|]. intros Hin. apply Hn. apply in_or_app. right. right. exact Hin.
Qed.
Lemma own_sub table dd here m : well_nested table dd here m -> sub (flatten m) (own m).
Proof.
  induction 1; cbn [flatten own].
  - constructor.
  - eapply sub_drop; eassumption.
  - apply sub_same. apply sub_app; [assumption|]. apply sub_same. assumption.
  - apply sub_same. change (c :: own rest) with ([] ++ c :: own rest). apply sub_app; [apply sub_all_skip|]. apply sub_same. assumption.
Qed.
Lemma proper_infix a b c : proper_lines (a ++ b ++ c) -> proper_lines b.
Proof.
  intros H. apply (@sub_proper (a ++ b ++ c)); [|exact H].
  change b with ([] ++ b) at 2. apply sub_app; [apply sub_all_skip|]. rewrite <- (app_nil_r b) at 2. apply sub_app; [|apply sub_all_skip].
  clear. induction b; [constructor|apply sub_same; assumption].
Qed.

(** ** What the re-assembler does with a list of lines *)
Section Pack.
Variables (st : store) (dest path : list N) (index : list (list N * list N)).
Fixpoint pack_go (fuel : nat) (p : list N) (dd : option (list N)) (ls : list (list N)) : res (list N) :=
  match ls with
  | [] => Ok []
  | l :: rest =>
    let _line := strip l in
    let line := file_directive dd l in
    inc <- match is_area _line with
           | Some _ =>
             let parts := area_name_parts _line in
             let dd' := match parts with _ :: d :: _ => Some d | _ => dd end in
             let '(p', f) := parse_include_path (hd [] parts) p index false in
             pack_file fuel st dest p' f index dd'
           | None => Ok []
           end ;;
    r <- pack_go fuel p dd rest ;;
    Ok (line ++ inc ++ r)
  end.
Lemma pack_file_go fuel p f dd : pack_file (S fuel) st dest p f index dd =
  match dget (file_key dest p f) st with None => Err ExtExc | Some text => pack_go fuel p dd (lines text) end.
Proof.
  cbn [pack_file]. destruct (dget (file_key dest p f) st) as [text|]; [|reflexivity].
  generalize (lines text). intros ls. induction ls as [|l ls IH]; [reflexivity|]. cbn [pack_go]. rewrite <- IH. reflexivity.
Qed.
Definition place (name : list N) : list N :=
  let pf := parse_include_path name path index false in file_key dest (fst pf) (snd pf).
Definition holds (m : code) : Prop := forall k data kind, In (k, (data, kind)) (areas_of m) -> dget (place k) st = Some data.

Lemma go_plain fuel p dd l more : is_area (strip l) = None ->
  pack_go fuel p dd (l :: more) = (r <- pack_go fuel p dd more ;; Ok (file_directive dd l ++ r)).
Proof. intros H. cbn [pack_go]. rewrite H. reflexivity. Qed.
Lemma hash_directive dd l r : strip l = HASH :: r -> file_directive dd l = l.
Proof. intros E. unfold file_directive. destruct dd as [[|c d]|]; try reflexivity. rewrite E. reflexivity. Qed.
Lemma plain_no_area dd l : plain_line dd l -> is_area (strip (drop_directive l)) = None.
Proof.
  intros (Ho & _ & [[Hm _]|(d & rest & _ & _ & -> & Ha & Hoc)]).
  - rewrite drop_unmarked by exact Hm. destruct (is_area (strip l)) eqn:E; [|reflexivity]. exfalso. apply Ho. exact (is_area_starts _ E).
  - rewrite drop_marked by assumption. pose proof (strip_mark rest) as H. apply starts_spec in H. destruct H as [t ->]. reflexivity.
Qed.
Lemma plain_directive dd l : plain_line dd l -> file_directive dd (drop_directive l) = l.
Proof.
  intros (Ho & _ & [[Hm Hd]|(d & rest & -> & Hd & -> & Ha & Hoc)]).
  - rewrite drop_unmarked by exact Hm. unfold file_directive. destruct dd as [[|c d]|]; try reflexivity.
    destruct Hd as [Hd|Hd]; [discriminate|]. change a_dyn1 with s_mark. rewrite Hd. reflexivity.
  - rewrite drop_marked by assumption. unfold file_directive. destruct d as [|c d]; [congruence|].
    change a_dyn1 with s_mark. rewrite strip_mark. reflexivity.
Qed.
Lemma closes_no_area c : closes c -> is_area (strip c) = None.
Proof. intros H. destruct (is_area (strip c)) eqn:E; [|reflexivity]. pose proof (is_area_starts _ E). pose proof (closes_not_opens H). congruence. Qed.

Lemma mem_one s : mem_ch 95 s = false -> split_ch 95 s = [s].
Proof. intros H. apply split_ch_nosep. intros Hin. apply mem_ch_in in Hin. congruence. Qed.
Lemma in_many s : In 95 s -> removelast (split_ch 95 s) <> [].
Proof.
  intros H. apply in_split in H. destruct H as (a & b & ->). rewrite split_ch_app.
  destruct (exists_last (split_ch_nonnil 95 b)) as (l & x & E). rewrite E. rewrite app_assoc, removelast_last. 
  pose proof (split_ch_nonnil 95 a). destruct (split_ch 95 a); [congruence|discriminate].
Qed.

Lemma pack_code dd here m : well_nested index dd here m -> forall fuel p more,
  (length (keys m) <= fuel)%nat -> (here = true -> p = path) -> holds m -> proper_lines (flatten m) ->
  (forall k, In k (keys m) -> ~ In slash (target index k)) ->
  pack_go fuel p dd (own m ++ more) = (r <- pack_go fuel p dd more ;; Ok (concat (flatten m) ++ r)).
Proof.
  assert (Hbind : forall (x : res (list N)) y, (r <- (r <- x ;; Ok (y ++ r)) ;; Ok r) = (r <- x ;; Ok (y ++ r))) by (intros [a|e] y; reflexivity).
  induction 1 as [dd here|dd here l rest Hl Hw IH|dd here o body c rest Ho H1 H2 Hc Hmo Hmc Hb IHb Hr IHr|dd here o body c rest w name d Hh Hc Hmo Hmc Hn Hb IHb Hr IHr];
    intros fuel p more Hf Hp Hh0 Hpl Hsl; cbn [own flatten concat app] in *.
  - destruct (pack_go fuel p dd more); reflexivity.
  - rewrite go_plain by (eapply plain_no_area; eassumption). rewrite IH; [|exact Hf|exact Hp|exact Hh0|exact (proper_tl Hpl)|exact Hsl].
    rewrite plain_directive by exact Hl. destruct (pack_go fuel p dd more); [|reflexivity]. cbn [bind]. rewrite <- app_assoc. reflexivity.
  - unfold keys in Hf, Hsl. cbn [areas_of] in Hf, Hsl. rewrite map_app in Hsl. rewrite map_app, app_length in Hf. unfold holds in Hh0. cbn [areas_of] in Hh0.
    destruct (opens_head Ho) as [ro Ero]. destruct (closes_head Hc) as [rc Erc].
    rewrite go_plain by (apply is_area_none; assumption). rewrite (hash_directive _ _ Ero). rewrite <- app_assoc. cbn [app].
    rewrite IHb.
    + rewrite go_plain by (apply closes_no_area; exact Hc). rewrite (hash_directive _ _ Erc).
      rewrite IHr.
      * destruct (pack_go fuel p dd more); [|reflexivity]. cbn [bind]. rewrite concat_app. cbn [concat]. rewrite <- !app_assoc. reflexivity.
      * unfold keys. lia.
      * exact Hp.
      * intros k data kind Hin. apply (Hh0 k data kind). apply in_or_app. right. exact Hin.
      * apply proper_tl in Hpl. apply (@proper_infix (flatten body ++ [c]) (flatten rest) []). rewrite app_nil_r, <- app_assoc. exact Hpl.
      * intros k Hk. apply Hsl. apply in_or_app. right. exact Hk.
    + unfold keys. lia.
    + exact Hp.
    + intros k data kind Hin. apply (Hh0 k data kind). apply in_or_app. left. exact Hin.
    + apply proper_tl in Hpl. exact (@proper_infix [] (flatten body) _ Hpl).
    + intros k Hk. apply Hsl. apply in_or_app. left. exact Hk.
  - unfold keys in Hf, Hsl. cbn [areas_of map fst length] in Hf, Hsl. rewrite map_app in Hsl. rewrite map_app, app_length in Hf. unfold holds in Hh0. cbn [areas_of] in Hh0.
    destruct (header_parts Hh) as [Ek Ep]. destruct (opens_head (header_opens Hh)) as [ro Ero]. destruct (closes_head Hc) as [rc Erc].
    pose proof (header_key Hh) as Ekey.
    cbn [pack_go]. rewrite Ek, Ep. rewrite (hash_directive _ _ Ero). cbn [hd].
    set (dd' := match d with Some _ => d | None => dd end) in *.
    assert (Edd : match name :: match d with Some x => [x] | None => [] end with _ :: x :: _ => Some x | _ => dd end = dd') by (unfold dd'; destruct d; reflexivity).
    rewrite Edd. clear Edd.
    assert (Hsn : ~ In slash (target index name)) by (apply Hsl; left; exact Ekey).
    destruct fuel as [|fuel]; [exfalso; lia|].
    assert (Hinc : (let '(p', f) := parse_include_path name p index false in pack_file (S fuel) st dest p' f index dd') = Ok (concat (flatten body))).
    { destruct (parse_include_path name p index false) as [p' f] eqn:Epf. rewrite pack_file_go.
      assert (Hpl' : (here = true /\ p = path) \/ In 95 (target index name)) by (destruct Hn as [->|Hn]; [left; auto|right; exact Hn]).
      assert (Epl : file_key dest p' f = place name).
      { unfold place. destruct Hpl' as [[_ ->]|Hin]; [rewrite Epf; reflexivity|].
        rewrite (@parse_many name p index false Hsn (in_many _ Hin)) in Epf. rewrite (@parse_many name path index false Hsn (in_many _ Hin)).
        injection Epf as <- <-. reflexivity. }
      rewrite Epl, (Hh0 name (concat (own body)) (is_area (strip o))) by (left; rewrite Ekey; reflexivity).
      assert (Hpb : proper_lines (flatten body)) by (apply proper_tl in Hpl; exact (@proper_infix [] (flatten body) _ Hpl)).
      rewrite lines_proper by (apply (sub_proper (own_sub Hb)); exact Hpb).
      rewrite <- (app_nil_r (own body)). rewrite IHb.
      - cbn [pack_go bind]. rewrite app_nil_r. reflexivity.
      - unfold keys. lia.
      - intros Hhere. apply andb_true_iff in Hhere. destruct Hhere as [Hhere Hm]. apply negb_true_iff in Hm.
        destruct (@parse_one name p index _ (mem_one _ Hm)) as [P1 _]. rewrite P1 in Epf. injection Epf as <- _. apply Hp. exact Hhere.
      - intros k data kind Hin. apply (Hh0 k data kind). right. apply in_or_app. left. exact Hin.
      - exact Hpb.
      - intros k Hk. apply Hsl. right. apply in_or_app. left. exact Hk. }
    rewrite Hinc. cbn [bind]. rewrite (closes_no_area Hc). cbn [bind]. rewrite (hash_directive _ _ Erc). rewrite IHr.
    + destruct (pack_go (S fuel) p dd more); [|reflexivity]. cbn [bind]. rewrite concat_app. cbn [concat app]. rewrite <- !app_assoc. reflexivity.
    + unfold keys. lia.
    + exact Hp.
    + intros k data kind Hin. apply (Hh0 k data kind). right. apply in_or_app. right. exact Hin.
    + apply proper_tl in Hpl. apply (@proper_infix (flatten body ++ [c]) (flatten rest) []). rewrite app_nil_r, <- app_assoc. exact Hpl.
    + intros k Hk. apply Hsl. right. apply in_or_app. right. exact Hk.
Qed.
End Pack.

(** ** Writing the areas *)
Section Write.
Variables (dest path file : list N) (index : list (list N * list N)).
Definition loc (k : list N) : list N := if str_eqb k k_root then file_key dest path file else place dest path index k.
Definition written_area (k : list N) (kind : option area_kind) : bool :=
  str_eqb k k_root || match kind with Some Includr => false | _ => true end.
Lemma write_step k data kind rest st : write_areas dest path file index ((k, (data, kind)) :: rest) st =
  write_areas dest path file index rest (if written_area k kind then dset (loc k) data st else st).
Proof.
  cbn [write_areas]. unfold written_area, loc, place. destruct (str_eqb k k_root); [reflexivity|]. cbn [orb].
  destruct kind as [[|]|]; try reflexivity; destruct (parse_include_path k path index false); reflexivity.
Qed.
Lemma write_other a : forall st x, ~ In x (map (fun e => loc (fst e)) a) -> dget x (write_areas dest path file index a st) = dget x st.
Proof.
  induction a as [|[k [data kind]] a IH]; intros st x Hx; [reflexivity|]. rewrite write_step. cbn in Hx.
  rewrite IH by (intros H; apply Hx; right; exact H). destruct (written_area k kind); [|reflexivity].
  apply dget_dset_other. intros ->. apply Hx. left. reflexivity.
Qed.
Lemma write_get a : forall st, NoDup (map (fun e => loc (fst e)) a) -> forall k data kind, In (k, (data, kind)) a ->
  dget (loc k) (write_areas dest path file index a st) = if written_area k kind then Some data else dget (loc k) st.
Proof.
  induction a as [|[k0 [data0 kind0]] a IH]; intros st Hnd k data kind Hin; [contradiction|]. cbn in Hnd. inversion Hnd as [|? ? Hn Hr]; subst.
  rewrite write_step. destruct Hin as [E|Hin].
  - injection E as -> -> ->. rewrite write_other by exact Hn. destruct (written_area k kind); [apply dget_dset_same|reflexivity].
  - rewrite (IH _ Hr k data kind Hin). destruct (written_area k kind); [reflexivity|]. destruct (written_area k0 kind0); [|reflexivity].
    apply dget_dset_other. intros E. apply Hn. apply in_map_iff. exists (k, (data, kind)). split; [exact E|exact Hin].
Qed.
End Write.

Lemma unpack_text table m : well_nested table None true m -> proper_lines (flatten m) -> NoDup (k_root :: keys m) ->
  unpack (text_of m) = Ok ((k_root, (concat (own m), None)) :: areas_of m).
Proof.
  intros Hw Hp Hn. unfold unpack, text_of. rewrite lines_proper by exact Hp.
  inversion Hn as [|? ? Hr Hk]; subst.
  rewrite <- (app_nil_r (flatten m)). rewrite (@unpack_code _ _ _ _ Hw [] [(k_root, ([], None))] [[]] k_root [] [] None).
  - reflexivity.
  - reflexivity.
  - split; [exact Hk|]. intros x Hx. cbn. destruct (str_eqb x k_root) eqn:E; [|reflexivity]. apply str_eqb_spec in E. subst. contradiction.
Qed.

Lemma round_trip table dest path file m ns st :
  well_nested table None true m -> proper_lines (flatten m) -> names m ns -> ~ In s_root ns ->
  is_abs path = false -> ~ In 47 file -> (forall n, In n ns -> ~ In 47 (target table n)) ->
  NoDup ((enter (enter [] dest) path ++ [file]) :: map (include_file table false (enter [] dest) path) ns) ->
  exists a st', unpack (text_of m) = Ok a /\ unpack_code_file dest path file table (text_of m) st = Ok st' /\
    ((forall n data, In (n, (data, Some Includr)) a -> dget (written (include_file table false (enter [] dest) path n)) st = Some data) ->
     forall fuel, (length ns < fuel)%nat -> pack_file fuel st' dest path file table None = Ok (text_of m)).
Proof.
  intros Hw Hp Hns Hroot Habs Hfile Hsl Hnd.
  pose proof (names_keys Hns) as Ek.
  assert (Hnn : NoDup ns) by (apply NoDup_cons_iff in Hnd; eapply NoDup_map_inv; exact (proj2 Hnd)).
  assert (Hkr : NoDup (k_root :: keys m)) by (rewrite Ek; constructor; assumption).
  pose proof (unpack_text Hw Hp Hkr) as Hu. eexists; eexists. split; [exact Hu|]. unfold unpack_code_file. rewrite Hu. split; [reflexivity|].
  intros Hincr fuel Hfuel. destruct fuel as [|fuel]; [lia|]. rewrite pack_file_go.
  set (a := (k_root, (concat (own m), None)) :: areas_of m) in *.
  assert (Eloc : forall k, In k ns -> loc dest path file table k = written (include_file table false (enter [] dest) path k)).
  { intros k Hk. unfold loc. destruct (str_eqb k k_root) eqn:E; [apply str_eqb_spec in E; subst; contradiction|]. unfold place. apply include_place; [exact Habs|apply Hsl; exact Hk]. }
  assert (Emod : loc dest path file table k_root = written (enter (enter [] dest) path ++ [file])).
  { unfold loc. rewrite str_eqb_refl. apply file_key_written; assumption. }
  assert (Hgood : forall k, In k ns -> Forall (fun e => ~ In slash e) (include_file table false (enter [] dest) path k) /\ include_file table false (enter [] dest) path k <> []).
  { intros k Hk. unfold include_file. 
    assert (Hnice : forall f, nice f -> Forall (fun e => ~ In slash e) f) by (intros f Hf; eapply Forall_impl; [|exact Hf]; intros ? [? ?]; assumption).
    assert (HF : Forall (fun e => ~ In slash e) (split_ch 95 (target table k))) by (apply split_parts_in, Hsl; exact Hk).
    assert (Hb : forall n, ~ In slash n -> ~ In slash (n ++ s_bsl)).
    { intros n Hn H. apply in_app_or in H. destruct H as [H|H]; [contradiction|]. cbn in H. intuition discriminate. }
    assert (Hne : nice (enter [] dest)) by (apply nice_enter; constructor).
    assert (HL : ~ In slash (last (split_ch 95 (target table k)) [])).
    { destruct (exists_last (split_ch_nonnil 95 (target table k))) as (l & x & E2). rewrite E2 in *. rewrite last_last. apply Forall_app in HF. destruct HF as [_ HF]. inversion HF; subst. assumption. }
    destruct (split_ch 95 (target table k)) as [|x [|y t]] eqn:E.
    - exfalso. exact (split_ch_nonnil 95 _ E).
    - split; [|intros H; apply app_eq_nil in H; destruct H; discriminate]. apply Forall_app. split; [apply Hnice, nice_enter, Hne|]. constructor; [apply Hb; exact HL|constructor].
    - split; [|intros H; apply app_eq_nil in H; destruct H; discriminate]. apply Forall_app. split.
      + apply Hnice, nice_fold; [apply climb_noslash, Forall_removelast; exact HF|]. apply nice_removelast. exact Hne.
      + constructor; [apply Hb; exact HL|constructor]. }
  assert (Hmodg : Forall (fun e => ~ In slash e) (enter (enter [] dest) path ++ [file])).
  { apply Forall_app. split; [|constructor; [exact Hfile|constructor]]. assert (H : nice (enter (enter [] dest) path)) by (apply nice_enter, nice_enter; constructor).
    eapply Forall_impl; [|exact H]. intros ? [? ?]; assumption. }
  assert (Hnl : NoDup (map (fun e => loc dest path file table (fst e)) a)).
  { unfold a. cbn [map fst]. rewrite <- map_map. fold (keys m). rewrite Ek, Emod. pose proof Hnd as Hnd2. apply NoDup_cons_iff in Hnd2. destruct Hnd2 as [Hx Hy]. constructor.
    - intros Hin. apply in_map_iff in Hin. destruct Hin as (k & Ek2 & Hk). rewrite Eloc in Ek2 by exact Hk. apply Hx. apply in_map_iff. exists k. split; [|exact Hk].
      destruct (Hgood k Hk) as [G1 G2]. apply written_inj; [exact G2|intros H; apply app_eq_nil in H; destruct H; discriminate|exact G1|exact Hmodg|exact Ek2].
    - clear Hx Hincr Hu Hkr Ek Hns Hroot Hnd Hfuel Hnn a.
      induction ns as [|k ns IH]; [constructor|]. cbn in *. inversion Hy as [|? ? H1 H2]; subst. constructor.
      + intros Hin. apply in_map_iff in Hin. destruct Hin as (k2 & Ek2 & Hk2). apply H1. apply in_map_iff. exists k2. split; [|exact Hk2].
        rewrite !Eloc in Ek2 by (first [left; reflexivity|right; exact Hk2]). destruct (Hgood k (or_introl eq_refl)). destruct (Hgood k2 (or_intror Hk2)). apply written_inj; assumption.
      + apply IH; auto. }
  pose proof (@write_get dest path file table a st Hnl) as Hget.
  assert (Emain : dget (file_key dest path file) (write_areas dest path file table a st) = Some (concat (own m))).
  { pose proof (Hget k_root (concat (own m)) None (or_introl eq_refl)) as H. unfold loc, written_area in H. rewrite str_eqb_refl in H. exact H. }
  rewrite Emain. rewrite lines_proper by (apply (sub_proper (own_sub Hw)); exact Hp).
  rewrite <- (app_nil_r (own m)). rewrite (@pack_code _ dest path table _ _ _ Hw).
  - cbn [pack_go bind]. rewrite app_nil_r. reflexivity.
  - rewrite Ek. lia.
  - reflexivity.
  - intros k data kind Hin. assert (Hk : In k ns) by (rewrite <- Ek; apply in_map_iff; exists (k, (data, kind)); auto).
    pose proof (Hget k data kind (or_intror Hin)) as H. unfold loc, written_area in H.
    destruct (str_eqb k k_root) eqn:E; [apply str_eqb_spec in E; subst; contradiction|]. cbn [orb] in H.
    destruct kind as [[|]|]; [exact H| |exact H]. rewrite H. rewrite <- (Hincr k data (or_intror Hin)). f_equal.
    rewrite <- Eloc by exact Hk. unfold loc. rewrite E. reflexivity.
  - exact Hp.
  - intros k Hk. apply Hsl. rewrite <- Ek. exact Hk.
Qed.
