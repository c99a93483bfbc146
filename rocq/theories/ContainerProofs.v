(** Proofs: build and read of a whole container. *)
From Verif Require Import PyBase PyInt Utf PyFile Container ContainerHex ContainerToc Spec_Container.
Open Scope Z_scope.

Definition layout_of (fm : cfmt) : layout :=
  mklayout (f_hsize fm) (f_bhsize fm) (f_ibs fm) (3 * Z.of_nat (f_iw fm)).
Definition node_of (e : entry) : list N * node := (e_name e, NFile (e_ctime e) (e_mtime e) (e_data e)).
Definition prep_ent (e : entry) : list N * prep := (e_name e, PFile (e_ctime e) (e_mtime e) (e_data e)).

(** ** Sorting *)
Lemma str_leb_total a : forall b, str_leb a b = false -> str_leb b a = true.
Proof.
  induction a as [|x a IH]; intros [|y b]; cbn; try discriminate; try reflexivity.
  intros H. destruct (x <? y)%N eqn:E1; [discriminate|]. destruct (N.eqb x y) eqn:E2; cbn in H.
  - apply N.eqb_eq in E2. subst. rewrite N.eqb_refl, (IH _ H). destruct (y <? y)%N; reflexivity.
  - replace (y <? x)%N with true by lia. reflexivity.
Qed.
Lemma str_leb_lt a : forall b, str_leb a b = true -> a <> b -> name_lt a b.
Proof.
  induction a as [|x a IH]; intros [|y b]; cbn; try discriminate; try tauto.
  intros H Hne. destruct (x <? y)%N eqn:E1; [left; lia|]. destruct (N.eqb x y) eqn:E2; [|discriminate].
  apply N.eqb_eq in E2. subst. right; split; [reflexivity|]. apply IH; [exact H|congruence].
Qed.
Lemma name_lt_leb a : forall b, name_lt a b -> str_leb a b = true.
Proof.
  induction a as [|x a IH]; intros [|y b]; cbn; try tauto.
  intros [H|[-> H]]; [replace (x <? y)%N with true by lia; reflexivity|].
  rewrite N.eqb_refl, IH by exact H. apply orb_true_r.
Qed.
Lemma name_lt_trans a : forall b c, name_lt a b -> name_lt b c -> name_lt a c.
Proof.
  induction a as [|x a IH]; intros [|y b] [|z c]; cbn; try tauto.
  intros [H|[-> H]] [H'|[-> H']]; try (left; lia). right; split; [reflexivity|eauto].
Qed.
Lemma name_lt_irrefl a : ~ name_lt a a.
Proof. induction a; cbn; [tauto|]. intros [H|[_ H]]; [lia|tauto]. Qed.

Lemma insert_by_perm {A} (leb : A -> A -> bool) x l : Permutation (x :: l) (insert_by leb x l).
Proof.
  induction l as [|y l IH]; [reflexivity|]. cbn. destruct (leb x y); [reflexivity|].
  rewrite perm_swap, IH. reflexivity.
Qed.
Lemma sort_by_perm {A} (leb : A -> A -> bool) l : Permutation l (sort_by leb l).
Proof. induction l as [|x l IH]; [reflexivity|]. cbn. rewrite <- insert_by_perm, <- IH. reflexivity. Qed.

Lemma insert_ascending {A} x (l : list (list N * A)) :
  ascending (map fst l) -> ~ In (fst x) (map fst l) ->
  ascending (map fst (insert_by (fun a b => str_leb (fst a) (fst b)) x l)).
Proof.
  induction l as [|y l IH]; [cbn; auto|]. cbn [insert_by map ascending]. intros [H1 H2] Hn.
  destruct (str_leb (fst x) (fst y)) eqn:E.
  - cbn [map ascending]. assert (Hlt : name_lt (fst x) (fst y)).
    { apply str_leb_lt; [exact E|]. intros E2. apply Hn. left; auto. }
    repeat split; try assumption. constructor; [exact Hlt|].
    eapply Forall_impl; [|exact H1]. intros b Hb. eapply name_lt_trans; eauto.
  - cbn [map ascending]. split; [|apply IH; [exact H2|intros Hin; apply Hn; right; exact Hin]].
    assert (Hlt : name_lt (fst y) (fst x)).
    { apply str_leb_lt; [apply str_leb_total; exact E|]. intros E2. apply Hn. left; auto. }
    pose proof (insert_by_perm (fun a b : list N * A => str_leb (fst a) (fst b)) x l) as P.
    apply (Permutation_map fst) in P. rewrite <- P. cbn [map]. constructor; assumption.
Qed.
Lemma sort_names_ascending {A} (l : list (list N * A)) : NoDup (map fst l) -> ascending (map fst (sort_names l)).
Proof.
  unfold sort_names. induction l as [|x l IH]; [reflexivity|]. cbn [map sort_by]. intros H.
  inversion H; subst. apply insert_ascending; [apply IH; assumption|].
  rewrite <- (Permutation_map fst (sort_by_perm (fun a b : list N * A => str_leb (fst a) (fst b)) l)). assumption.
Qed.
Lemma ascending_nodup l : ascending l -> NoDup l.
Proof.
  induction l as [|a l IH]; [constructor|]. intros [H1 H2]. constructor; [|apply IH; exact H2].
  intros Hin. rewrite Forall_forall in H1. apply (name_lt_irrefl a). apply H1; exact Hin.
Qed.
(** an ascending arrangement is unique *)
Lemma ascending_unique {A} (l : list (list N * A)) : forall l', Permutation l l' ->
  ascending (map fst l) -> ascending (map fst l') -> l = l'.
Proof.
  induction l as [|x l IH]; intros l' P H1 H2.
  - apply Permutation_nil in P. congruence.
  - destruct l' as [|y l']; [apply Permutation_sym, Permutation_nil in P; discriminate|].
    cbn [map ascending] in H1, H2. destruct H1 as [H1a H1b], H2 as [H2a H2b].
    assert (x = y) as ->.
    { assert (Hx : In x (y :: l')) by (rewrite <- P; left; reflexivity).
      assert (Hy : In y (x :: l)) by (rewrite P; left; reflexivity).
      destruct Hx as [Hx|Hx]; [auto|]. destruct Hy as [Hy|Hy]; [auto|]. exfalso.
      rewrite Forall_forall in H1a, H2a.
      pose proof (H1a (fst y) (in_map fst _ _ Hy)). pose proof (H2a (fst x) (in_map fst _ _ Hx)).
      apply (name_lt_irrefl (fst x)). eapply name_lt_trans; eauto. }
    f_equal. apply IH; [eapply Permutation_cons_inv; exact P|exact H1b|exact H2b].
Qed.
Lemma sort_names_perm {A} (l l' : list (list N * A)) : NoDup (map fst l) -> Permutation l l' ->
  sort_names l = sort_names l'.
Proof.
  intros Hn P. apply ascending_unique.
  - unfold sort_names. rewrite <- (sort_by_perm _ l), <- (sort_by_perm _ l'). exact P.
  - apply sort_names_ascending; exact Hn.
  - apply sort_names_ascending. rewrite <- (Permutation_map fst P). exact Hn.
Qed.

Lemma sort_names_map_ent {B} (g : entry -> list N * B) (es : list entry) :
  (forall e, fst (g e) = e_name e) ->
  NoDup (map e_name es) -> exists es', sort_names (map g es) = map g es' /\ sorted_of es es'.
Proof.
  intros Hg Hn.
  assert (H : forall es, exists es', sort_names (map g es) = map g es' /\ Permutation es es').
  { unfold sort_names. clear es Hn. induction es as [|e es IH]; [exists []; split; reflexivity|].
    destruct IH as (es' & E & P). cbn [map sort_by]. rewrite E.
    assert (Hi : forall l, exists l', insert_by (fun x y : list N * B => str_leb (fst x) (fst y)) (g e) (map g l) = map g l'
              /\ Permutation (e :: l) l').
    { induction l as [|y l IHl]; [exists [e]; split; reflexivity|]. cbn [map insert_by].
      destruct (str_leb _ _); [exists (e :: y :: l); split; reflexivity|].
      destruct IHl as (l' & E' & P'). exists (y :: l'). cbn [map]. rewrite E'. split; [reflexivity|].
      rewrite perm_swap, P'. reflexivity. }
    destruct (Hi es') as (l' & E' & P'). exists l'. split; [exact E'|]. rewrite <- P', P. reflexivity. }
  destruct (H es) as (es' & E & P). exists es'. split; [exact E|]. split; [exact P|].
  assert (Hm : forall l, map fst (map g l) = map e_name l).
  { intros l. rewrite map_map. apply map_ext. exact Hg. }
  rewrite <- Hm, <- E. apply sort_names_ascending. rewrite Hm. exact Hn.
Qed.
Lemma sorted_of_unique es es1 es2 : sorted_of es es1 -> sorted_of es es2 -> es1 = es2.
Proof.
  intros [P1 A1] [P2 A2].
  assert (Hm : forall l, map fst (map (fun e => (e_name e, e)) l) = map e_name l).
  { intros l. rewrite map_map. reflexivity. }
  assert (E : map (fun e => (e_name e, e)) es1 = map (fun e => (e_name e, e)) es2).
  { apply ascending_unique; rewrite ?Hm; try assumption. apply Permutation_map. rewrite <- P1. exact P2. }
  apply (f_equal (map snd)) in E. rewrite !map_map in E. cbn in E. rewrite !map_id in E. exact E.
Qed.

(** ** Names and descriptions *)
Lemma zlen_flat_unit_le us : zlen (flat_map unit_le us) = 2 * zlen us.
Proof. induction us as [|x us IH]; [reflexivity|]. cbn [flat_map]. rewrite zlen_app, IH, zlen_cons. change (zlen (unit_le x)) with 2. lia. Qed.
Lemma utf16_size_units s : 2 * zlen (flat_map utf16_units s) = utf16_size s.
Proof.
  induction s as [|c s IH]; [reflexivity|]. cbn [flat_map utf16_size fold_right]. fold (utf16_size s).
  rewrite zlen_app. unfold utf16_units at 1. destruct (c <? 65536)%N.
  - change (zlen [c]) with 1. lia.
  - match goal with |- context [zlen (?a :: ?b :: ?l)] => change (zlen (a :: b :: l)) with 2 end. lia.
Qed.
Lemma utf16_size_nonneg s : 0 <= utf16_size s.
Proof. rewrite <- utf16_size_units. pose proof (zlen_nonneg (flat_map utf16_units s)). lia. Qed.

Lemma before_nul_app s t : ~ In 0%N s -> before_nul (s ++ 0%N :: t) = s.
Proof.
  induction s as [|c s IH]; intros H; cbn; [reflexivity|]. destruct (N.eqb c 0) eqn:E.
  - apply N.eqb_eq in E. exfalso. apply H. left; auto.
  - f_equal. apply IH. intros Hin. apply H. right; exact Hin.
Qed.

Lemma scalar_0 : scalar 0%N.
Proof. split; [lia|reflexivity]. Qed.

Lemma utf16le_encode_app s t b : utf16le_encode s = Ok b -> forallb (fun c => negb (is_surrogate c)) t = true ->
  utf16le_encode (s ++ t) = Ok (b ++ flat_map unit_le (flat_map utf16_units t)).
Proof.
  unfold utf16le_encode. rewrite forallb_app. destruct (forallb _ s); [|discriminate]. intros E ->.
  injection E as <-. cbn [andb]. rewrite !flat_map_app. reflexivity.
Qed.

Definition desc (e : entry) : list N :=
  match file_description (e_ctime e) (e_mtime e) (e_name e) with Ok d => d | Err _ => [] end.

Lemma desc_ok e : valid_entry e ->
  file_description (e_ctime e) (e_mtime e) (e_name e) = Ok (desc e)
  /\ zlen (desc e) = 24 + utf16_size (e_name e)
  /\ parse_description (desc e) (zlen (desc e)) = Ok (e_name e, e_ctime e, e_mtime e).
Proof.
  intros (Hs & Hz & Hb & Hc & Hm).
  assert (Hp : forall v, 0 <= v < 2 ^ 64 -> pack_int false 8 v = Ok (le_bytes 8 v)).
  { intros v Hv. unfold pack_int. change (256 ^ Z.of_nat 8) with (2 ^ 64).
    replace ((0 <=? v) && (v <? 2 ^ 64)) with true by lia. rewrite Z.mod_small by lia. reflexivity. }
  assert (Hu : forall v, 0 <= v < 2 ^ 64 -> unpack_int false (le_bytes 8 v) = v).
  { intros v Hv. eapply unpack_pack; [|apply Hp; exact Hv]. lia. }
  assert (He : utf16le_encode (e_name e) = Ok (flat_map unit_le (flat_map utf16_units (e_name e)))).
  { unfold utf16le_encode. replace (forallb _ _) with true; [reflexivity|].
    symmetry. apply forallb_forall. intros c Hin. rewrite Forall_forall in Hs.
    destruct (Hs c Hin) as [_ ->]. reflexivity. }
  set (nb := flat_map unit_le (flat_map utf16_units (e_name e))) in *.
  set (a := le_bytes 8 (e_ctime e)). set (b := le_bytes 8 (e_mtime e)).
  assert (Hd : file_description (e_ctime e) (e_mtime e) (e_name e) = Ok (a ++ b ++ zeros 4 ++ nb ++ zeros 4)).
  { unfold file_description. rewrite (Hp _ Hc), (Hp _ Hm). cbn [bind].
    replace (pack_int true 4 0) with (Ok (zeros 4)) by reflexivity. cbn [bind]. rewrite He. reflexivity. }
  unfold desc. rewrite Hd. split; [reflexivity|].
  assert (La : zlen a = 8) by (unfold a, zlen; rewrite le_bytes_len; reflexivity).
  assert (Lb : zlen b = 8) by (unfold b, zlen; rewrite le_bytes_len; reflexivity).
  assert (Ln : zlen nb = utf16_size (e_name e)) by (unfold nb; rewrite zlen_flat_unit_le; apply utf16_size_units).
  assert (Hlen : zlen (a ++ b ++ zeros 4 ++ nb ++ zeros 4) = 24 + utf16_size (e_name e)).
  { rewrite !zlen_app, La, Lb, Ln. change (zlen (zeros 4)) with 4. lia. }
  split; [exact Hlen|].
  pose proof (utf16_size_nonneg (e_name e)) as Hnn.
  unfold parse_description. rewrite Hlen.
  replace ((24 + utf16_size (e_name e) - 20 <? 0) || negb (24 + utf16_size (e_name e) =? 24 + utf16_size (e_name e))) with false by lia.
  assert (Hdrop : zdrop 20 (a ++ b ++ zeros 4 ++ nb ++ zeros 4) = nb ++ zeros 4).
  { rewrite (app_assoc a), (app_assoc (a ++ b)). apply zdrop_app_exact. rewrite !zlen_app, La, Lb. reflexivity. }
  rewrite Hdrop.
  assert (Hdec : utf16_decode (nb ++ zeros 4) = Ok (e_name e ++ [0; 0]%N)).
  { destruct (utf16_roundtrip (e_name e ++ [0; 0]%N)) as (bs & E1 & E2).
    - apply Forall_app. split; [exact Hs|]. repeat constructor.
    - destruct (e_name e); cbn in *; [split; discriminate|exact Hb].
    - rewrite (utf16le_encode_app _ _ _ He) in E1 by reflexivity. injection E1 as <-. exact E2. }
  rewrite Hdec. cbn [bind]. rewrite before_nul_app by exact Hz.
  replace (slice 0 8 (a ++ b ++ zeros 4 ++ nb ++ zeros 4)) with a
    by (unfold slice; rewrite zdrop_0 by lia; symmetry; apply ztake_app_exact; exact La).
  replace (slice 8 8 (a ++ b ++ zeros 4 ++ nb ++ zeros 4)) with b
    by (symmetry; apply slice_app_mid; assumption).
  unfold a, b. rewrite (Hu _ Hc), (Hu _ Hm). reflexivity.
Qed.

(** ** Layout of the body *)
Definition ent_bytes (fm : cfmt) (e : entry) : list N :=
  blk fm (desc e) (zlen (desc e)) 0 None ++ blk fm (e_data e) (zlen (e_data e)) default_block_size None.
Definition body (fm : cfmt) (es : list entry) : list N := concat (map (ent_bytes fm) es).
Fixpoint toc_of (fm : cfmt) (off : Z) (es : list entry) : list (Z * Z) :=
  match es with
  | [] => []
  | e :: r => (off, off + zlen (blk fm (desc e) (zlen (desc e)) 0 None)) :: toc_of fm (off + zlen (ent_bytes fm e)) r
  end.
Definition toc_some (t : list (Z * Z)) : list (Z * option Z) := map (fun p => (fst p, Some (snd p))) t.

Lemma ent_bytes_len fm e : fmt_ok fm -> valid_entry e -> zlen (ent_bytes fm e) = entry_size (layout_of fm) e.
Proof.
  intros Hf Hv. destruct (desc_ok e Hv) as (_ & Hl & _). unfold ent_bytes, entry_size.
  rewrite zlen_app, !blk_len by exact Hf. cbn [layout_of l_block_header].
  pose proof (utf16_size_nonneg (e_name e)). unfold default_block_size. rewrite Hl. lia.
Qed.
Lemma body_len fm es : fmt_ok fm -> Forall valid_entry es ->
  zlen (body fm es) = sumz (map (entry_size (layout_of fm)) es).
Proof.
  intros Hf. induction es as [|e es IH]; intros H; [reflexivity|]. inversion H; subst.
  cbn [body map concat sumz fold_right]. fold (body fm es). fold (sumz (map (entry_size (layout_of fm)) es)).
  rewrite zlen_app, IH, ent_bytes_len by assumption. reflexivity.
Qed.
Lemma zlen_toc_of fm es : forall off, zlen (toc_of fm off es) = zlen es.
Proof. induction es as [|e es IH]; intros off; [reflexivity|]. cbn [toc_of]. rewrite !zlen_cons, IH. reflexivity. Qed.

Section WithDeflate.
  Variable deflate : list N -> list N.

  Lemma add_files_body fm : fmt_ok fm -> forall es f toc,
    Forall valid_entry es -> fpos f = fsize f ->
    exists f', add_files deflate fm false (mkw f toc) (map prep_ent es)
        = Ok (mkw f' (toc ++ toc_some (toc_of fm (fsize f) es)))
      /\ fdata f' = fdata f ++ body fm es /\ fpos f' = fsize f'.
  Proof.
    intros Hf. induction es as [|e es IH]; intros f toc Hv Hp.
    - exists f. cbn. rewrite !app_nil_r. auto.
    - inversion Hv as [|? ? He Hes]; subst. destruct (desc_ok e He) as (Hd & _ & _).
      cbn [map prep_ent add_files add_file w_file w_toc]. rewrite Hd. cbn [bind].
      unfold doc_write at 1.
      destruct (write_block_append fm f (desc e) (zlen (desc e)) 0 None Hf Hp) as (f1 & W1 & D1 & P1).
      rewrite W1. cbv iota.
      unfold doc_write at 1.
      destruct (write_block_append fm f1 (e_data e) (zlen (e_data e)) default_block_size None Hf P1) as (f2 & W2 & D2 & P2).
      rewrite W2. cbv iota. cbn [bind].
      destruct (IH f2 (toc ++ [(fsize f, Some (fsize f1))]) Hes P2) as (f3 & A3 & D3 & P3).
      exists f3. rewrite A3.
      assert (S1 : fsize f1 = fsize f + zlen (blk fm (desc e) (zlen (desc e)) 0 None)).
      { unfold fsize. rewrite D1, zlen_app. reflexivity. }
      assert (S2 : fsize f2 = fsize f + zlen (ent_bytes fm e)).
      { unfold ent_bytes. rewrite zlen_app. unfold fsize at 1. rewrite D2, zlen_app. fold (fsize f1). lia. }
      split; [|split; [|exact P3]].
      + do 2 f_equal. rewrite <- app_assoc. cbn [app]. f_equal. cbn [toc_of toc_some map fst snd].
        rewrite S1, S2. reflexivity.
      + rewrite D3, D2, D1. cbn [body map concat]. fold (body fm es). unfold ent_bytes.
        rewrite <- !app_assoc. reflexivity.
  Qed.

End WithDeflate.

  (** The header. *)
  Definition hdr (fm : cfmt) (count : Z) : list N :=
    match pack_int (f_isgn fm) (f_first_w fm) (f_end fm), pack_int true 4 count with
    | Ok a, Ok c => a ++ [0; 2; 0; 0]%N ++ c ++ zeros 4
    | _, _ => []
    end.
  Lemma write_header_ok fm count : good_fmt fm -> 0 <= count < 2 ^ 31 ->
    exists f, write_header fm fempty 0 count = Ok f
      /\ fdata f = hdr fm count ++ zeros (f_ibs fm + f_bhsize fm) /\ fpos f = fsize f
      /\ zlen (hdr fm count) = f_hsize fm
      /\ (forall tl, read_header fm 0 (hdr fm count ++ tl) = Ok (default_block_size, count)).
  Proof.
    intros Hg Hc. unfold write_header, hdr.
    assert (Ha : exists a, pack_int (f_isgn fm) (f_first_w fm) (f_end fm) = Ok a) by (destruct Hg as [-> | ->]; eexists; reflexivity).
    destruct Ha as [a Ha].
    assert (Hcp : exists c, pack_int true 4 count = Ok c).
    { unfold pack_int. change (256 ^ Z.of_nat 4) with 4294967296. change (4294967296 / 2) with 2147483648.
      change (2 ^ 31) with 2147483648 in Hc.
      replace ((_ <=? count) && (count <? _)) with true by lia. eexists; reflexivity. }
    destruct Hcp as [c Hcp]. rewrite Ha, Hcp. cbn [bind].
    replace (pack_int true 4 default_block_size) with (Ok [0; 2; 0; 0]%N) by reflexivity.
    replace (pack_int true 4 0) with (Ok (zeros 4)) by reflexivity. cbn [bind].
    set (h := a ++ [0; 2; 0; 0]%N ++ c ++ zeros 4).
    pose proof (pack_int_len _ _ _ _ Ha) as La. pose proof (pack_int_len _ _ _ _ Hcp) as Lc.
    pose proof (fo_hs _ (good_ok _ Hg)) as Hhs.
    assert (Lh : zlen h = f_hsize fm).
    { unfold h. rewrite !zlen_app, La, Lc. change (zlen [0; 2; 0; 0]%N) with 4. change (zlen (zeros 4)) with 4. lia. }
    eexists; split; [reflexivity|].
    assert (Hp1 : fpos (fseek 0 fempty) = fsize (fseek 0 fempty)) by reflexivity.
    destruct (fwrite_end h _ Hp1) as [D1 P1].
    assert (Hp2 : fpos (fwrite h (fseek 0 fempty)) = fsize (fwrite h (fseek 0 fempty))).
    { rewrite P1. unfold fsize. rewrite D1, zlen_app. reflexivity. }
    destruct (fwrite_end (zeros (f_ibs fm + f_bhsize fm)) _ Hp2) as [D2 P2].
    split; [|split; [|split; [exact Lh|]]].
    - rewrite D2, D1. reflexivity.
    - rewrite P2. unfold fsize. rewrite D2, zlen_app. reflexivity.
    - intros tl. unfold read_header, check_seek. change (0 <? 0) with false. change (2 ^ 63 <=? 0) with false.
      cbv iota. cbn [bind]. rewrite <- Hhs.
      replace (slice 0 (f_hsize fm) (h ++ tl)) with h
        by (unfold slice; rewrite zdrop_0 by lia; symmetry; apply ztake_app_exact; exact Lh).
      rewrite Lh, Z.eqb_refl.
      replace (slice (Z.of_nat (f_first_w fm)) 4 h) with [0; 2; 0; 0]%N
        by (symmetry; apply slice_app_mid; [exact La|reflexivity]).
      replace (slice (Z.of_nat (f_first_w fm) + 4) 4 h) with c.
      2: { unfold h. rewrite app_assoc. symmetry; apply slice_app_mid; [rewrite zlen_app, La; reflexivity|exact Lc]. }
      rewrite (unpack_pack true 4%nat count c (Nat.lt_0_succ 3) Hcp). reflexivity.
  Qed.

  Definition zone (fm : cfmt) (t : list N) (next : Z) : list N :=
    if (zlen t + f_ibs fm - 1) / f_ibs fm =? 1 then blk fm t (zlen t) 0 None ++ zeros (f_ibs fm - zlen t)
    else blk fm (ztake (f_ibs fm) t) (zlen t) (f_ibs fm) (Some next).
  Definition tail (fm : cfmt) (t : list N) (next : Z) : list N :=
    if (zlen t + f_ibs fm - 1) / f_ibs fm =? 1 then []
    else tail_bytes fm (Z.to_nat ((zlen t + f_ibs fm - 1) / f_ibs fm - 1)) (zdrop (f_ibs fm) t) next.

  Lemma ceil1 fm n : fmt_ok fm -> 0 < n -> (n + f_ibs fm - 1) / f_ibs fm = 1 <-> n <= f_ibs fm.
  Proof.
    intros Hf Hn. pose proof (fo_ibs _ Hf) as H. set (I := f_ibs fm) in *. clearbody I.
    assert (0 < I) by lia. split; intros.
    - destruct (Z_le_gt_dec n I); [assumption|]. exfalso.
      assert (2 <= (n + I - 1) / I) by (apply Z.div_le_lower_bound; lia). lia.
    - symmetry. apply (Z.div_unique _ _ 1 (n - 1)); lia.
  Qed.

  Lemma zone_len fm t next : fmt_ok fm -> 0 < zlen t -> zlen (zone fm t next) = f_ibs fm + f_bhsize fm.
  Proof.
    intros Hf Ht. unfold zone. pose proof (ceil1 fm (zlen t) Hf Ht) as Hc. pose proof (fo_ibs _ Hf) as Hibs.
    destruct (Z.eqb_spec ((zlen t + f_ibs fm - 1) / f_ibs fm) 1) as [E|E].
    - rewrite zlen_app, blk_len, zlen_zeros by exact Hf. apply Hc in E. lia.
    - rewrite blk_len by exact Hf. rewrite zlen_ztake. lia.
  Qed.

  Lemma write_toc_layout fm : good_fmt fm -> forall f toc t h b,
    toc <> [] -> toc_bytes fm toc = Ok t -> 0 < zlen t ->
    fdata f = h ++ zeros (f_ibs fm + f_bhsize fm) ++ b -> zlen h = f_hsize fm ->
    exists f', write_toc fm (mkw f toc) = Ok f'
      /\ fdata f' = h ++ zone fm t (fsize f) ++ b ++ tail fm t (fsize f).
  Proof.
    intros Hg f toc t h b Hne Ht Htl Hd Hh. pose proof (good_ok _ Hg) as Hf.
    unfold write_toc. cbn [w_toc w_file]. destruct toc as [|x toc]; [congruence|].
    rewrite Ht. cbn [bind]. pose proof (fo_ibs _ Hf) as Hibs. pose proof (fo_bh _ Hf) as Hbh.
    assert (Hhs : 0 <= f_hsize fm) by (rewrite <- Hh; apply zlen_nonneg).
    pose proof (ceil1 fm (zlen t) Hf Htl) as Hc.
    unfold zone, tail.
    destruct (Z.eqb_spec ((zlen t + f_ibs fm - 1) / f_ibs fm) 1) as [E|E].
    - apply Hc in E. eexists; split; [reflexivity|].
      rewrite write_block_fwrite by assumption. cbn [fst].
      rewrite app_nil_r.
      edestruct (fwrite_over (blk fm t (zlen t) 0 None) (fseek (f_hsize fm) f) h
         (zeros (f_bhsize fm + zlen t)) (zeros (f_ibs fm - zlen t) ++ b)) as [D _].
      + cbn [fdata fseek]. rewrite Hd. f_equal. rewrite app_assoc. f_equal.
        rewrite <- zeros_add by lia. f_equal. lia.
      + cbn. auto.
      + rewrite blk_len, zlen_zeros by exact Hf. lia.
      + rewrite D, <- app_assoc. reflexivity.
    - rewrite write_block_fwrite by assumption. cbv iota.
      set (next := fsize f).
      edestruct (fwrite_over (blk fm (ztake (f_ibs fm) t) (zlen t) (f_ibs fm) (Some next)) (fseek (f_hsize fm) f) h
         (zeros (f_ibs fm + f_bhsize fm)) b) as [D _].
      + exact Hd.
      + cbn. auto.
      + rewrite blk_len, zlen_zeros by exact Hf. rewrite zlen_ztake. lia.
      + set (f1 := fwrite _ _) in *.
        destruct (toc_loop fm _ (fseek_end f1) _ next) as [f3 r] eqn:EL.
        eexists; split; [reflexivity|].
        destruct (toc_loop_write fm Hf _ (fseek_end f1) _ _ _ _ eq_refl EL) as [D4 _].
        rewrite D4. cbn [fseek_end fdata]. rewrite D, <- !app_assoc. reflexivity.
  Qed.

(** ** Reading it back *)
Lemma zdrop_firstpart fm (t : list N) : 0 < f_ibs fm -> zlen t = zlen (ztake (f_ibs fm) t) + zlen (zdrop (f_ibs fm) t).
Proof. intros. rewrite zlen_ztake, zlen_zdrop. pose proof (zlen_nonneg t). lia. Qed.

Definition toc_full (fm : cfmt) (n : Z) : Z :=
  if n <? f_ibs fm then 3 * f_ibs fm
  else if n =? f_ibs fm then f_ibs fm + f_bhsize fm
  else n + (n + f_ibs fm - 1) / f_ibs fm * f_ibs fm + f_ibs fm.

Lemma ceil_div_eq a b : 0 < b -> ceil_div a b = (a + b - 1) / b.
Proof.
  intros Hb. unfold ceil_div.
  assert (H : (a + b - 1) / b = - ((- a) / b)); [|lia].
  symmetry. apply (Z.div_unique _ _ _ (b - 1 - (- a) mod b)).
  - pose proof (Z.mod_pos_bound (- a) b Hb). lia.
  - pose proof (Z.div_mod (- a) b ltac:(lia)). lia.
Qed.

Lemma toc_doc_read fm t h b fuel : good_fmt fm -> 0 < zlen t -> zlen h = f_hsize fm ->
  let next := zlen h + (f_ibs fm + f_bhsize fm) + zlen b in
  let file := h ++ zone fm t next ++ b ++ tail fm t next in
  zlen file < f_end fm -> zlen file < 2 ^ 63 ->
  (Z.to_nat ((zlen t + f_ibs fm - 1) / f_ibs fm) <= fuel)%nat ->
  doc_read fuel fm 0 file (f_hsize fm) (f_ibs fm) = Ok (t, zlen t, toc_full fm (zlen t)).
Proof.
  intros Hg Ht Hh next file Hfe Hf63 Hfuel. pose proof (good_ok _ Hg) as Hf.
  pose proof (fo_ibs _ Hf) as Hibs. pose proof (fo_bh _ Hf) as Hbh. pose proof (fo_end _ Hf) as Hend.
  pose proof (fo_hexw _ Hf) as Hhx.
  assert (HM : 65536 < 16 ^ Z.of_nat (f_hexw fm)) by (clear - Hg; destruct Hg as [-> | ->]; reflexivity).
  assert (Hat : at_ (f_hsize fm) (zone fm t next) file) by (rewrite <- Hh; apply at_here).
  assert (Hzl : zlen (zone fm t next) = f_ibs fm + f_bhsize fm) by (apply zone_len; assumption).
  assert (Hhs : 0 <= f_hsize fm) by (rewrite <- Hh; apply zlen_nonneg).
  pose proof (at_bound _ _ _ Hat) as [_ Hb1].
  pose proof (ceil1 fm (zlen t) Hf Ht) as Hc.
  unfold doc_read, gen_start. unfold toc_full.
  destruct (Z.eq_dec ((zlen t + f_ibs fm - 1) / f_ibs fm) 1) as [E|E].
  - pose proof (proj1 Hc E) as Hle.
    unfold zone in Hat. rewrite E in Hat. change (1 =? 1) with true in Hat. cbv iota in Hat.
    apply at_app_l in Hat. unfold blk in Hat.
    replace (Z.max 0 (zlen t)) with (zlen t) in Hat by lia. rewrite zeros_nil, app_nil_r in Hat by lia.
    rewrite (read_block_at fm 0 file (f_hsize fm) None (zlen t) (zlen t) (f_end fm) t); try assumption; try lia.
    2: { rewrite Z.add_0_r. exact Hat. }
    cbn [bind b_cur b_doc b_data b_next].
    assert (Hfull : (if zlen t <? Z.max (zlen t) (f_ibs fm) then
         if zlen t =? 0 then Err ZeroDivisionError
         else Ok (Z.max (zlen t) (f_ibs fm) + ceil_div (zlen t) (zlen t) * f_ibs fm
                        + (if f_ibs fm =? f_ibs fm then f_ibs fm else 0))
       else Ok (Z.max (zlen t) (f_ibs fm) + f_bhsize fm))
       = Ok (if zlen t <? f_ibs fm then 3 * f_ibs fm else if zlen t =? f_ibs fm then f_ibs fm + f_bhsize fm
             else zlen t + 1 * f_ibs fm + f_ibs fm)).
    { rewrite Z.eqb_refl. rewrite ceil_div_eq by lia.
      replace ((zlen t + zlen t - 1) / zlen t) with 1 by (apply (Z.div_unique _ _ _ (zlen t - 1)); lia).
      destruct (Z.ltb_spec (zlen t) (f_ibs fm)).
      - replace (zlen t <? _) with true by lia. replace (zlen t =? 0) with false by lia. f_equal. lia.
      - replace (zlen t <? _) with false by lia. replace (zlen t =? f_ibs fm) with true by lia. f_equal. lia. }
    rewrite Hfull. cbn [bind]. rewrite gen_drain_single. cbn [bind g_doc g_full]. rewrite E. reflexivity.
  - assert (Hgt : f_ibs fm < zlen t) by (destruct (Z_le_gt_dec (zlen t) (f_ibs fm)); [tauto|lia]).
    unfold zone in Hat. replace ((zlen t + f_ibs fm - 1) / f_ibs fm =? 1) with false in Hat by lia.
    assert (Htk : zlen (ztake (f_ibs fm) t) = f_ibs fm) by (rewrite zlen_ztake; lia).
    unfold blk in Hat. rewrite Htk, Z.max_id, Z.sub_diag in Hat. change (zeros 0) with (@nil N) in Hat.
    rewrite app_nil_r in Hat.
    assert (Hnx : next_val fm (Some next) = next).
    { unfold next_val. replace (next =? 0) with false; [reflexivity|].
      unfold next. pose proof (zlen_nonneg b). lia. }
    rewrite Hnx in Hat.
    set (n := Z.to_nat ((zlen t + f_ibs fm - 1) / f_ibs fm - 1)).
    assert (Htl : tail fm t next = tail_bytes fm n (zdrop (f_ibs fm) t) next).
    { unfold tail. replace ((zlen t + f_ibs fm - 1) / f_ibs fm =? 1) with false by lia. reflexivity. }
    assert (Hat2 : at_ next (tail_bytes fm n (zdrop (f_ibs fm) t) next) file).
    { unfold file. rewrite Htl. replace next with (zlen (h ++ zone fm t next ++ b)) at 1.
      - exists (h ++ zone fm t next ++ b), []. rewrite app_nil_r, <- !app_assoc. split; reflexivity.
      - rewrite !zlen_app, Hzl. unfold next. lia. }
    pose proof (at_bound _ _ _ Hat2) as [Hb2 Hb3]. rewrite tail_bytes_len in Hb3 by exact Hf.
    assert (Hdm := Z.div_mod (zlen t + f_ibs fm - 1) (f_ibs fm) ltac:(lia)).
    assert (Hmb := Z.mod_pos_bound (zlen t + f_ibs fm - 1) (f_ibs fm) ltac:(lia)).
    set (q := (zlen t + f_ibs fm - 1) / f_ibs fm) in *.
    assert (Hn : Z.of_nat n = q - 1) by (unfold n; nia).
    assert (Hq0 : 0 <= q) by (clear - Hn; lia).
    assert (Htf : zlen t <= zlen file).
    { rewrite Hn in Hb3. clear - Hb3 Hb2 Hdm Hmb Hq0 Hibs Hbh.
      assert (0 <= q * f_bhsize fm) by (apply Z.mul_nonneg_nonneg; lia).
      replace ((q - 1 + 1) * (f_ibs fm + f_bhsize fm)) with (f_ibs fm * q + q * f_bhsize fm) in Hb3 by ring. lia. }
    rewrite (read_block_at fm 0 file (f_hsize fm) None (zlen t) (f_ibs fm) next (ztake (f_ibs fm) t)); try assumption.
    2: { clear - Htf Hfe Hend Ht. lia. }
    2: { clear - HM Hibs. lia. }
    2: { clear - Hb2 Hb3 Hn Hq0 Hibs Hbh Hfe Hend. split; [exact Hb2|].
         assert (0 <= (Z.of_nat n + 1) * (f_ibs fm + f_bhsize fm)) by (apply Z.mul_nonneg_nonneg; lia). lia. }
    2: { clear - Hb1 Hzl Hf63 Hibs Hbh. lia. }
    2: { rewrite Z.add_0_r. exact Hat. }
    2: { clear - Htk Hgt. lia. }
    cbn [bind b_cur b_doc b_data b_next].
    replace (f_ibs fm <? Z.max (zlen t) (f_ibs fm)) with true by lia.
    replace (f_ibs fm =? 0) with false by lia. rewrite Z.eqb_refl. cbn [bind].
    unfold gen_drain. cbn [g_doc g_first g_next g_full].
    replace (zlen t - zlen (ztake (f_ibs fm) t)) with (zlen (zdrop (f_ibs fm) t)) by (rewrite (zdrop_firstpart fm t) by lia; lia).
    destruct (gen_rest_tail fm Hf n (zdrop (f_ibs fm) t) next file fuel) as (r & R1 & R2); try assumption.
    + rewrite zlen_zdrop, Hn. clear - Hdm Hmb Hq0 Hibs Hgt.
      replace ((q - 1) * f_ibs fm) with (f_ibs fm * q - f_ibs fm) by ring. lia.
    + clear - Hn Hfuel Hq0. lia.
    + rewrite R1. cbn [bind]. rewrite R2, ztake_drop.
      replace (zlen t <? f_ibs fm) with false by lia. replace (zlen t =? f_ibs fm) with false by lia.
      do 2 f_equal. rewrite ceil_div_eq by lia. fold q. lia.
Qed.

Definition file_gen (fm : cfmt) (data : list N) : gen :=
  mkgen (zlen data) data (f_end fm) (Z.max default_block_size (zlen data) + f_bhsize fm).
Definition cfile_of (fm : cfmt) (e : entry) : list N * cfile :=
  (e_name e, mkcfile (e_name e) (zlen (e_data e)) (e_ctime e) (e_mtime e) (file_gen fm (e_data e))).

Lemma dset_new {V} k (v : V) d : ~ In k (map fst d) -> dset k v d = d ++ [(k, v)].
Proof.
  induction d as [|[k' v'] d IH]; cbn; [reflexivity|]. intros H.
  destruct (str_eqb k k') eqn:E.
  - apply str_eqb_spec in E. exfalso. apply H. left; auto.
  - rewrite IH; [reflexivity|tauto].
Qed.

Lemma read_entries_body fm : good_fmt fm -> forall fuel file es pre post size acc,
  Forall valid_entry es -> NoDup (map e_name es) ->
  (forall e, In e es -> ~ In (e_name e) (map fst acc)) ->
  file = pre ++ body fm es ++ post -> zlen file < f_end fm -> zlen file < 2 ^ 63 ->
  read_entries fuel fm default_block_size 0 file (toc_of fm (zlen pre) es) size acc
  = Ok (acc ++ map (cfile_of fm) es, size + zlen (body fm es)).
Proof.
  intros Hg fuel file. pose proof (good_ok _ Hg) as Hf.
  assert (HM : 65536 < 16 ^ Z.of_nat (f_hexw fm)) by (clear - Hg; destruct Hg as [-> | ->]; reflexivity).
  pose proof (fo_bh _ Hf) as Hbh. pose proof (fo_end _ Hf) as Hend.
  induction es as [|e es IH]; intros pre post size acc Hv Hnd Hacc Hfile Hfe Hf63.
  - cbn. rewrite app_nil_r. do 2 f_equal. lia.
  - inversion Hv as [|? ? He Hes]; subst x l. cbn [map] in Hnd. inversion Hnd as [|? ? Hn1 Hn2]; subst x l.
    destruct (desc_ok e He) as (Hd & Hdl & Hpd).
    cbn [body map concat] in Hfile. fold (body fm es) in Hfile. unfold ent_bytes in Hfile.
    set (B1 := blk fm (desc e) (zlen (desc e)) 0 None) in *.
    set (B2 := blk fm (e_data e) (zlen (e_data e)) default_block_size None) in *.
    assert (L1 : zlen B1 = f_bhsize fm + Z.max 0 (zlen (desc e))) by (apply blk_len; exact Hf).
    assert (L2 : zlen B2 = f_bhsize fm + Z.max default_block_size (zlen (e_data e))) by (apply blk_len; exact Hf).
    assert (A1 : at_ (zlen pre) B1 file).
    { rewrite Hfile, <- !app_assoc. apply at_here. }
    assert (A2 : at_ (zlen pre + zlen B1) B2 file).
    { rewrite Hfile, <- !app_assoc, (app_assoc pre B1), <- zlen_app. apply at_here. }
    pose proof (at_bound _ _ _ A1) as [Hb1 Hb2]. pose proof (at_bound _ _ _ A2) as [Hb3 Hb4].
    pose proof (zlen_nonneg (desc e)) as Hn3. pose proof (zlen_nonneg (e_data e)) as Hn4.
    unfold default_block_size in L2.
    cbn [toc_of read_entries]. fold B1.
    unfold doc_read at 1.
    rewrite (gen_start_doc fm file (zlen pre) (desc e) 0 0 Hf) by (try exact A1; lia).
    cbn [bind]. rewrite gen_drain_single. cbn [bind g_doc g_full]. rewrite Hpd. cbn [bind].
    rewrite (gen_start_doc fm file (zlen pre + zlen B1) (e_data e) default_block_size default_block_size Hf)
      by (try exact A2; unfold default_block_size; lia).
    cbn [bind g_doc g_full].
    rewrite dset_new by (apply Hacc; left; reflexivity).
    replace (zlen pre + zlen (ent_bytes fm e)) with (zlen (pre ++ ent_bytes fm e)) by apply zlen_app.
    rewrite (IH (pre ++ ent_bytes fm e) post); try assumption.
    + f_equal. f_equal.
      * rewrite <- app_assoc. reflexivity.
      * cbn [body map concat]. fold (body fm es). unfold ent_bytes. fold B1 B2. rewrite !zlen_app. unfold default_block_size. lia.
    + intros e' Hin. rewrite map_app, in_app_iff. intros [Hin2|[Heq|[]]].
      * apply (Hacc e'); [right; exact Hin|exact Hin2].
      * cbn in Heq. apply Hn1. rewrite Heq. apply in_map. exact Hin.
    + rewrite Hfile. unfold ent_bytes. fold B1 B2. rewrite <- !app_assoc. reflexivity.
Qed.

Lemma extract_files_body fm : forall fuel file es,
  extract_files fuel fm 0 file (map (cfile_of fm) es) = Ok (map (fun e => (e_name e, e_data e)) es).
Proof.
  intros fuel file. induction es as [|e es IH]; [reflexivity|].
  cbn [map extract_files cfile_of fst snd c_gen]. unfold file_gen at 1. rewrite gen_drain_single.
  fold (cfile_of fm). cbn [bind]. rewrite IH. reflexivity.
Qed.

Lemma toc_of_off_ok fm : good_fmt fm -> forall es pre post,
  Forall valid_entry es ->
  let file := pre ++ body fm es ++ post in
  zlen file < f_end fm -> zlen file < 2 ^ 63 ->
  Forall (fun p => off_ok fm (fst p) /\ off_ok fm (snd p)) (toc_of fm (zlen pre) es).
Proof.
  intros Hg. pose proof (good_ok _ Hg) as Hf. pose proof (fo_bh _ Hf) as Hbh.
  induction es as [|e es IH]; intros pre post Hv file Hfe H63; [constructor|].
  inversion Hv as [|? ? He Hes]; subst x l. cbn [toc_of].
  assert (Hfile : file = (pre ++ ent_bytes fm e) ++ body fm es ++ post).
  { unfold file. cbn [body map concat]. fold (body fm es). rewrite <- !app_assoc. reflexivity. }
  assert (Hlen : zlen pre + zlen (ent_bytes fm e) <= zlen file).
  { rewrite Hfile, !zlen_app. pose proof (zlen_nonneg (body fm es)). pose proof (zlen_nonneg post). lia. }
  assert (Hel : zlen (blk fm (desc e) (zlen (desc e)) 0 None) <= zlen (ent_bytes fm e)).
  { unfold ent_bytes. rewrite zlen_app. pose proof (zlen_nonneg (blk fm (e_data e) (zlen (e_data e)) default_block_size None)). lia. }
  constructor.
  - cbn [fst snd]. pose proof (zlen_nonneg pre). pose proof (zlen_nonneg (blk fm (desc e) (zlen (desc e)) 0 None)).
    unfold off_ok. lia.
  - rewrite <- zlen_app. apply (IH _ post); [assumption| |]; rewrite <- Hfile; assumption.
Qed.

Lemma prep_nodes deflate es : map (fun e => (fst e, prep_of deflate (snd e))) (map node_of es) = map prep_ent es.
Proof. rewrite map_map. reflexivity. Qed.

Lemma zlen_perm {A} (a b : list A) : Permutation a b -> zlen a = zlen b.
Proof. intros P. unfold zlen. rewrite (Permutation_length P). reflexivity. Qed.
Lemma sumz_perm a b : Permutation a b -> sumz a = sumz b.
Proof. induction 1; cbn [sumz fold_right] in *; unfold sumz in *; cbn [fold_right]; lia. Qed.
Lemma sorted_valid es es' : sorted_of es es' -> valid_listing es -> valid_listing es'.
Proof.
  intros [P A] (H1 & H2 & H3). split; [|split].
  - intros ->. apply Permutation_sym, Permutation_nil in P. congruence.
  - rewrite <- P. exact H2.
  - rewrite <- (Permutation_map e_name P). exact H3.
Qed.
Lemma container_size_perm l es es' : Permutation es es' -> container_size l es = container_size l es'.
Proof.
  intros P. unfold container_size, toc_size. rewrite (zlen_perm _ _ P).
  rewrite (sumz_perm _ _ (Permutation_map (entry_size l) P)). reflexivity.
Qed.

Lemma toc_full_ge fm n : fmt_ok fm -> 0 < n -> n <> f_ibs fm ->
  f_ibs fm + f_bhsize fm + (if n <=? f_ibs fm then 0 else (n + f_ibs fm - 1) / f_ibs fm * (f_bhsize fm + f_ibs fm))
    < toc_full fm n <= 3 * (f_ibs fm + n).
Proof.
  intros Hf Hn Hne. pose proof (fo_ibs _ Hf) as H1. pose proof (fo_bh55 _ Hf) as H2. pose proof (fo_bh _ Hf) as H3.
  unfold toc_full. destruct (Z.leb_spec n (f_ibs fm)).
  - destruct (Z.ltb_spec n (f_ibs fm)); [lia|]. replace (n =? f_ibs fm) with true by lia. lia.
  - replace (n <? f_ibs fm) with false by lia. replace (n =? f_ibs fm) with false by lia.
    pose proof (Z.div_mod (n + f_ibs fm - 1) (f_ibs fm) ltac:(lia)) as Hdm.
    pose proof (Z.mod_pos_bound (n + f_ibs fm - 1) (f_ibs fm) ltac:(lia)) as Hmb.
    set (q := (n + f_ibs fm - 1) / f_ibs fm) in *. set (r := (n + f_ibs fm - 1) mod f_ibs fm) in *.
    assert (Hq0 : 0 <= q) by (apply Z.div_pos; lia).
    assert (Hq : q * 512 <= q * f_ibs fm) by (apply Z.mul_le_mono_nonneg_l; lia).
    assert (Hq2 : q * f_bhsize fm <= q * 55) by (apply Z.mul_le_mono_nonneg_l; lia).
    assert (Hq3 : q * f_ibs fm = n + f_ibs fm - 1 - r) by (rewrite Hdm at 1; ring_simplify; lia).
    rewrite Z.mul_add_distr_l. clearbody q r. clear Hdm. lia.
Qed.

(** The main theorem about one container at the start of a file. *)
Theorem container_roundtrip deflate fm es :
  good_fmt fm -> valid_listing es -> zlen es < 2 ^ 31 ->
  container_size (layout_of fm) es < f_end fm -> container_size (layout_of fm) es < 2 ^ 62 ->
  exists f es' N size,
    build deflate fm fempty (map node_of es) true 0 = Ok f
    /\ zlen (fdata f) = container_size (layout_of fm) es
    /\ sorted_of es es'
    /\ zlen (fdata f) < size < 2 ^ 63
    /\ (exists tl, fdata f = hdr fm (zlen es) ++ tl)
    /\ forall fuel, (N <= fuel)%nat ->
       read_container fuel fm (fdata f) 0 = Ok (map (cfile_of fm) es', size).
Proof.
  intros Hg Hvl Hcount Hsz Hsz62. pose proof (good_ok _ Hg) as Hf.
  destruct Hvl as (Hne0 & Hv0 & Hnd0).
  destruct (sort_names_map_ent prep_ent es (fun _ => eq_refl) Hnd0) as (es' & Hsort & Hso).
  pose proof (sorted_valid es es' Hso (conj Hne0 (conj Hv0 Hnd0))) as (Hne & Hv & Hnd).
  pose proof (zlen_perm _ _ (proj1 Hso)) as Hz. pose proof (zlen_nonneg es) as Hz0.
  assert (Hpos : 0 < zlen es) by (destruct es; [congruence|rewrite zlen_cons; pose proof (zlen_nonneg es); lia]).
  unfold build, build_prepared. rewrite prep_nodes, Hsort. rewrite zlen_map, <- Hz.
  destruct (write_header_ok fm (zlen es) Hg ltac:(lia)) as (f0 & W0 & D0 & P0 & Lh & RH).
  rewrite W0. cbn [bind negb].
  destruct (add_files_body deflate fm Hf es' f0 [] Hv P0) as (f1 & W1 & D1 & P1).
  rewrite W1. cbn [bind app].
  set (b := body fm es') in *. set (h := hdr fm (zlen es)) in *.
  pose proof (fo_ibs _ Hf) as Hibs. pose proof (fo_bh _ Hf) as Hbh.
  assert (Hpre : fsize f0 = zlen (h ++ zeros (f_ibs fm + f_bhsize fm))) by (unfold fsize; rewrite D0; reflexivity).
  assert (Hf1 : fsize f1 = f_hsize fm + (f_ibs fm + f_bhsize fm) + zlen b).
  { unfold fsize. rewrite D1, D0, !zlen_app, Lh, zlen_zeros. lia. }
  assert (Hbl : zlen b = sumz (map (entry_size (layout_of fm)) es)).
  { unfold b. rewrite body_len by assumption. apply sumz_perm, Permutation_map, Permutation_sym, (proj1 Hso). }
  set (cs := container_size (layout_of fm) es) in *.
  assert (Hcs : cs = f_hsize fm + (f_bhsize fm + f_ibs fm) + zlen b
     + (if 3 * Z.of_nat (f_iw fm) * zlen es <=? f_ibs fm then 0
        else (3 * Z.of_nat (f_iw fm) * zlen es + f_ibs fm - 1) / f_ibs fm * (f_bhsize fm + f_ibs fm))).
  { unfold cs, container_size, toc_size. cbn [layout_of l_header l_block_header l_index_block l_toc_entry]. rewrite Hbl. reflexivity. }
  assert (Hiw : 4 <= Z.of_nat (f_iw fm)) by (destruct Hg as [-> | ->]; discriminate).
  set (tn := 3 * Z.of_nat (f_iw fm) * zlen es) in *.
  assert (Htn : 0 < tn) by (unfold tn; nia).
  assert (Hcs1 : fsize f1 <= cs).
  { rewrite Hcs, Hf1. destruct (tn <=? f_ibs fm); [lia|].
    assert (0 <= (tn + f_ibs fm - 1) / f_ibs fm) by (apply Z.div_pos; lia). nia. }
  assert (Hofs : Forall (fun p => off_ok fm (fst p) /\ off_ok fm (snd p)) (toc_of fm (fsize f0) es')).
  { rewrite Hpre. apply (toc_of_off_ok fm Hg es' (h ++ zeros (f_ibs fm + f_bhsize fm)) []); [exact Hv| |];
    rewrite app_nil_r; fold b; rewrite <- D0, <- D1; fold (fsize f1); [lia|].
    change (2 ^ 63) with (2 * 2 ^ 62). lia. }
  destruct (parse_toc_bytes fm Hg _ Hofs) as (t & T1 & T2 & T3).
  rewrite zlen_toc_of, <- Hz in T2. fold tn in T2.
  destruct (write_toc_layout fm Hg f1 (toc_some (toc_of fm (fsize f0) es')) t h b) as (f2 & W2 & D2).
  { destruct es'; [congruence|discriminate]. }
  { exact T1. }
  { lia. }
  { rewrite D1, D0, <- app_assoc. reflexivity. }
  { exact Lh. }
  exists f2, es', (Z.to_nat ((zlen t + f_ibs fm - 1) / f_ibs fm)), (f_hsize fm + toc_full fm (zlen t) + zlen b).
  assert (Hlen2 : zlen (fdata f2) = cs).
  { rewrite D2, !zlen_app, zone_len, Lh by (try exact Hf; lia).
    rewrite Hcs. rewrite <- T2. unfold tail. pose proof (ceil1 fm (zlen t) Hf ltac:(lia)) as Hc.
    destruct (Z.leb_spec (zlen t) (f_ibs fm)).
    - apply Hc in H. rewrite H. change (1 =? 1) with true. cbv iota. change (zlen (@nil N)) with 0. lia.
    - destruct (Z.eqb_spec ((zlen t + f_ibs fm - 1) / f_ibs fm) 1); [lia|].
      rewrite tail_bytes_len by exact Hf. assert (0 <= (zlen t + f_ibs fm - 1) / f_ibs fm) by (apply Z.div_pos; lia).
      assert ((zlen t + f_ibs fm - 1) / f_ibs fm <> 0).
      { intros E0. pose proof (Z.div_mod (zlen t + f_ibs fm - 1) (f_ibs fm) ltac:(lia)).
        pose proof (Z.mod_pos_bound (zlen t + f_ibs fm - 1) (f_ibs fm) ltac:(lia)). lia. }
      rewrite Z2Nat.id by lia. lia. }
  assert (Hne512 : zlen t <> f_ibs fm).
  { rewrite T2. unfold tn. clear - Hg. destruct Hg as [-> | ->]; [change (f_ibs fmt32) with 512; change (Z.of_nat (f_iw fmt32)) with 4|change (f_ibs fmt64) with 65536; change (Z.of_nat (f_iw fmt64)) with 8]; lia. }
  pose proof (toc_full_ge fm (zlen t) Hf ltac:(lia) Hne512) as [Hfull1 Hfull2].
  assert (Hsize : cs < f_hsize fm + toc_full fm (zlen t) + zlen b < 2 ^ 63).
  { rewrite Hcs at 1. rewrite <- T2. split; [lia|].
    assert (zlen b <= cs) by (rewrite Hf1 in Hcs1; pose proof (fo_hs _ Hf); lia).
    rewrite T2 in Hfull2. assert (Hiw8 : Z.of_nat (f_iw fm) <= 8) by (destruct Hg as [-> | ->]; discriminate).
    assert (tn <= 24 * 2 ^ 31) by (unfold tn; nia).
    assert (f_hsize fm <= 20) by (destruct Hg as [-> | ->]; discriminate).
    change (2 ^ 62) with 4611686018427387904 in *. change (2 ^ 63) with 9223372036854775808.
    change (2 ^ 31) with 2147483648 in *. rewrite T2. lia. }
  split; [exact W2|]. split; [exact Hlen2|]. split; [exact Hso|].
  split; [rewrite Hlen2; exact Hsize|]. split; [eexists; exact D2|].
  intros fuel Hfuel.
  assert (H63 : zlen (fdata f2) < 2 ^ 63) by (rewrite Hlen2; lia).
  unfold read_container. rewrite D2 at 1. rewrite RH. cbn [bind].
  change (default_block_size =? 0) with false. cbv iota.
  assert (Hnext : fsize f1 = zlen h + (f_ibs fm + f_bhsize fm) + zlen b) by lia.
  rewrite D2, Hnext. rewrite Hnext in D2.
  rewrite (toc_doc_read fm t h b fuel Hg ltac:(lia) Lh) by (try (rewrite <- D2, ?Hlen2; lia); exact Hfuel).
  cbn [bind]. rewrite T3. cbn [bind].
  replace (fsize f0) with (zlen (h ++ zone fm t (zlen h + (f_ibs fm + f_bhsize fm) + zlen b))).
  2: { rewrite Hpre, !zlen_app, zone_len, zlen_zeros by (try exact Hf; lia). lia. }
  rewrite (read_entries_body fm Hg fuel _ es' (h ++ zone fm t (zlen h + (f_ibs fm + f_bhsize fm) + zlen b))
             (tail fm t (zlen h + (f_ibs fm + f_bhsize fm) + zlen b)) _ [] Hv Hnd).
  - reflexivity.
  - intros e _ [].
  - rewrite <- app_assoc. reflexivity.
  - rewrite <- D2. lia.
  - rewrite <- D2. lia.
Qed.
