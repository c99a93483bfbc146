(** Lemmas on positions in values, on JSON files and on header files, for MetaObj.v. *)
From Coq Require Import String.
From Verif Require Import PyBase PyText Utf Cp1251 Codecs Brace Spec_Brace BraceMore BraceFile JsonText JsonTextProofs JsonObj Header Pipeline Spec_Stage ObjCode Spec_Obj Payload
  Spec_Payload PayloadProofs UpdateDictProofs MetaObj Spec_MetaObj.
Open Scope list_scope.
Open Scope N_scope.

(** ** positions *)
Lemma set_nth_same {A} (l : list A) i x y : nth_error l i = Some y -> nth_error (set_nth i x l) i = Some x.
Proof. revert i. induction l as [|a l IH]; intros [|i] H; cbn in *; try discriminate; [reflexivity|]. apply IH. exact H. Qed.
Lemma set_nth_other {A} (l : list A) i j x : i <> j -> nth_error (set_nth i x l) j = nth_error l j.
Proof. revert i j. induction l as [|a l IH]; intros [|i] [|j] H; cbn; try reflexivity; try congruence. apply IH. congruence. Qed.
Lemma set_nth_id {A} (l : list A) i y : nth_error l i = Some y -> set_nth i y l = l.
Proof. revert i. induction l as [|a l IH]; intros [|i] H; cbn in *; try discriminate; try congruence. f_equal. apply IH. exact H. Qed.
Lemma set_nth_twice {A} (l : list A) i x y : set_nth i y (set_nth i x l) = set_nth i y l.
Proof. revert i. induction l as [|a l IH]; intros [|i]; cbn; try reflexivity. f_equal. apply IH. Qed.
Lemma set_nth_len {A} (l : list A) i x : length (set_nth i x l) = length l.
Proof. revert i. induction l as [|a l IH]; intros [|i]; cbn; try reflexivity. f_equal. apply IH. Qed.

Lemma vat_str p s x : vat p (VStr s) = Ok x -> exists t, x = VStr t.
Proof.
  revert s. induction p as [|i p IH]; intros s H; [injection H as <-; eauto|]. cbn [vat vget] in H. destruct (nth_error s i); [|discriminate]. cbn [bind] in H. eapply IH, H.
Qed.
(** an element that is a list stands in lists only *)
Lemma vat_vput p : forall v l y, vat p v = Ok (VList l) -> exists v', vput p y v = Ok v' /\ vat p v' = Ok y /\ vput p (VList l) v' = Ok v.
Proof.
  induction p as [|i p IH]; intros v l y H.
  - injection H as ->. exists y. repeat split.
  - cbn [vat] in H. destruct v as [|s|xs]; cbn [vget] in H; [discriminate| |].
    + destruct (nth_error s i); [|discriminate]. cbn [bind] in H. apply vat_str in H. destruct H as (t & H). discriminate.
    + destruct (nth_error xs i) as [x|] eqn:E; [|discriminate]. cbn [bind] in H. destruct (IH x l y H) as (x' & A & B & C).
      exists (VList (set_nth i x' xs)). cbn [vput vat vget]. rewrite E. cbn [bind]. rewrite A. cbn [bind]. unfold Payload.vset. rewrite E.
      rewrite (set_nth_same xs i x' x E). split; [reflexivity|]. cbn [bind]. split; [exact B|]. rewrite C. cbn [bind].
      rewrite set_nth_twice, set_nth_id by exact E. reflexivity.
Qed.
Lemma vat_apart p : forall q v y v', apart p q -> vput p y v = Ok v' -> vat q v' = vat q v.
Proof.
  induction p as [|i p IH]; intros [|j q] v y v' Ha H; try contradiction.
  cbn [vput] in H. destruct (vget v i) as [x|] eqn:E; [|discriminate]. cbn [bind] in H. destruct (vput p y x) as [x'|] eqn:F; [|discriminate]. cbn [bind] in H.
  destruct v as [|s|xs]; try discriminate. unfold Payload.vset in H. cbn [vget] in E. destruct (nth_error xs i) as [x0|] eqn:G; [|discriminate]. injection E as ->. injection H as <-.
  cbn [vat vget]. destruct (Nat.eq_dec i j) as [<-|Hij].
  - rewrite (set_nth_same xs i x' x G), G. cbn [bind]. destruct Ha as [Ha|Ha]; [congruence|]. eapply IH; eassumption.
  - rewrite set_nth_other by exact Hij. reflexivity.
Qed.

Lemma scal_list_in l x : scal (VList l) -> In x l -> scal x.
Proof.
  unfold scal. cbn [leaves]. intros H Hi. rewrite Forall_forall in *. intros c Hc. apply H. apply in_concat in Hc. destruct Hc as (s & Hs & Hc).
  apply in_concat. exists s. split; [|exact Hc]. apply in_flat_map. exists x. auto.
Qed.
Lemma scal_list l : Forall scal l -> scal (VList l).
Proof.
  intros H. unfold scal. cbn [leaves]. rewrite Forall_forall in *. intros c Hc. apply in_concat in Hc. destruct Hc as (s & Hs & Hc). apply in_flat_map in Hs. destruct Hs as (x & Hx & Hs).
  specialize (H x Hx). unfold scal in H. rewrite Forall_forall in H. apply H. apply in_concat. eauto.
Qed.
Lemma scal_str s : Forall scalar s <-> scal (VStr s).
Proof. unfold scal. cbn [leaves concat]. rewrite app_nil_r. reflexivity. Qed.
Lemma scal_vget v i x : scal v -> vget v i = Ok x -> scal x.
Proof.
  intros Hv H. destruct v as [|s|l]; cbn [vget] in H; [discriminate| |].
  - destruct (nth_error s i) as [c|] eqn:E; [|discriminate]. injection H as <-. apply scal_str in Hv. apply scal_str. constructor; [|constructor]. rewrite Forall_forall in Hv. apply Hv. eapply nth_error_In, E.
  - destruct (nth_error l i) as [y|] eqn:E; [|discriminate]. injection H as <-. eapply scal_list_in; [exact Hv|eapply nth_error_In, E].
Qed.
Lemma set_nth_in {A} (l : list A) i x y : In y (set_nth i x l) -> y = x \/ In y l.
Proof.
  revert i. induction l as [|a l IH]; intros [|i] H; cbn in *; try contradiction; [destruct H; auto|]. destruct H as [H|H]; [auto|]. destruct (IH _ H); auto.
Qed.
Lemma scal_vset v i x v' : scal v -> scal x -> Payload.vset v i x = Ok v' -> scal v'.
Proof.
  intros Hv Hx H. destruct v as [|s|l]; try discriminate. unfold Payload.vset in H. destruct (nth_error l i); [|discriminate]. injection H as <-.
  apply scal_list, Forall_forall. intros y Hy. destruct (set_nth_in _ _ _ _ Hy) as [->|Hi]; [exact Hx|]. eapply scal_list_in; eassumption.
Qed.
Lemma scal_vat p : forall v x, scal v -> vat p v = Ok x -> scal x.
Proof.
  induction p as [|i p IH]; intros v x Hv H; [injection H as <-; exact Hv|]. cbn [vat] in H. destruct (vget v i) as [y|] eqn:E; [|discriminate]. cbn [bind] in H. exact (IH y x (scal_vget v i y Hv E) H).
Qed.
Lemma scal_vput p : forall v y v', scal v -> scal y -> vput p y v = Ok v' -> scal v'.
Proof.
  induction p as [|i p IH]; intros v y v' Hv Hy H; [injection H as <-; exact Hy|]. cbn [vput] in H. destruct (vget v i) as [x|] eqn:E; [|discriminate]. cbn [bind] in H.
  destruct (vput p y x) as [x'|] eqn:F; [|discriminate]. cbn [bind] in H. eapply scal_vset; [exact Hv| |exact H]. exact (IH x y x' (scal_vget v i x Hv E) Hy F).
Qed.
Lemma brace_scal os data bs : brace_bytes os data bs -> scal (VList data).
Proof. intros (_ & H & _). exact H. Qed.

(** ** JSON files *)
Lemma json_files os j : jgood j -> exists bs,
  (forall (fo : folder) name, file_or_none (dget name fo) -> json_write os j fo name = Ok (dset name (TFile bs) fo)) /\
  (forall (fo : folder) name, dget name fo = Some (TFile bs) -> json_read fo name = Ok j).
Proof.
  intros Hg. destruct (jprint_chars j 0 Hg) as [Hc Hs]. destruct (utf8_roundtrip _ (scalar_write_nl os Hs)) as (bs & H1 & H2). exists bs. split.
  - intros fo name Hf. unfold json_write. rewrite H1. apply put_file_ok. exact Hf.
  - intros fo name Hf. unfold json_read. rewrite Hf, H2, univ_write_nocr by exact Hc. rewrite (jload_print _ Hg). reflexivity.
Qed.
Lemma jgood_jv v : scal v -> jgood (jv v).
Proof.
  intros H. split.
  - clear H. induction v as [|s|l IH] using val_ind2; try reflexivity. cbn [jv numsok]. rewrite forallb_forall. intros x Hx. apply in_map_iff in Hx. destruct Hx as (y & <- & Hy).
    rewrite Forall_forall in IH. apply IH. exact Hy.
  - assert (E : jstrs (jv v) = leaves v).
    { clear H. induction v as [|s|l IH] using val_ind2; try reflexivity. cbn [jv jstrs leaves]. induction l as [|x l IHl]; [reflexivity|]. inversion IH as [|? ? Hx Hl]; subst.
      cbn [map flat_map]. rewrite Hx, (IHl Hl). reflexivity. }
    rewrite E. unfold scal in H. rewrite Forall_forall in *. intros s Hs. rewrite Forall_forall. intros c Hc. apply H. apply in_concat. eauto.
Qed.
Lemma val_of_jv v : val_of (jv v) = Some v.
Proof.
  induction v as [|s|l IH] using val_ind2; try reflexivity. cbn [jv val_of].
  assert (G : forall acc, (fix go (l : list jval) (acc : list val) : option val :=
                  match l with [] => Some (VList (rev acc)) | x :: r => match val_of x with Some v => go r (v :: acc) | None => None end end) (map jv l) acc = Some (VList (rev acc ++ l))).
  { induction l as [|x l IHl]; intros acc; [cbn [map]; rewrite app_nil_r; reflexivity|]. inversion IH as [|? ? Hx Hl]; subst. cbn [map]. rewrite Hx, (IHl Hl). cbn [rev]. rewrite <- app_assoc. reflexivity. }
  rewrite G. reflexivity.
Qed.

(** ** header files *)
Definition hgood (h : header) : Prop := NoDup (dkeys h) /\ Forall (fun e => Forall scalar (fst e) /\ scal (snd e)) h.
Lemma in_dset {V} k (v : V) d e : In e (dset k v d) -> e = (k, v) \/ In e d.
Proof.
  induction d as [|[k' w] d IH]; cbn [dset]; [intros [<-|[]]; auto|]. destruct (str_eqb k k') eqn:E; cbn [In].
  - apply str_eqb_spec in E. subst. intros [<-|H]; auto.
  - intros [<-|H]; [auto|]. destruct (IH H); auto.
Qed.
Lemma hgood_dset k v h : hgood h -> Forall scalar k -> scal v -> hgood (dset k v h).
Proof.
  intros [H1 H2] Hk Hv. split.
  - rewrite dkeys_dset. destruct (existsb (str_eqb k) (dkeys h)) eqn:E; [exact H1|]. apply nodup_snoc; [exact H1|]. intros Hi.
    assert (existsb (str_eqb k) (dkeys h) = true) by (apply existsb_exists; exists k; split; [exact Hi|apply str_eqb_refl]). congruence.
  - rewrite Forall_forall in H2 |- *. intros e He. apply in_dset in He. destruct He as [->|He]; [split; assumption|]. apply H2. exact He.
Qed.

Lemma dget_ddel_same {V} k (d : list (list N * V)) : NoDup (dkeys d) -> dget k (ddel k d) = None.
Proof.
  induction d as [|[k' v] d IH]; intros H; [reflexivity|]. cbn [dkeys map fst] in H. inversion H as [|? ? Hn Hd]; subst. cbn [ddel]. destruct (str_eqb k k') eqn:E.
  - apply str_eqb_spec in E. subst. apply dget_none. exact Hn.
  - cbn [dget]. rewrite E. apply IH. exact Hd.
Qed.
Lemma in_ddel {V} k (d : list (list N * V)) e : In e (ddel k d) -> In e d.
Proof.
  induction d as [|[k' v] d IH]; [intros []|]. cbn [ddel]. destruct (str_eqb k k'); cbn [In]; [auto|]. intros [H|H]; [auto|]. right. apply IH. exact H.
Qed.
Lemma nodup_ddel {V} k (d : list (list N * V)) : NoDup (dkeys d) -> NoDup (dkeys (ddel k d)).
Proof.
  induction d as [|[k' v] d IH]; intros H; [exact H|]. cbn [dkeys map fst] in H. inversion H as [|? ? Hn Hd]; subst. cbn [ddel]. destruct (str_eqb k k'); [exact Hd|].
  cbn [dkeys map fst]. constructor; [|apply IH; exact Hd]. intros Hi. apply Hn. apply in_map_iff in Hi. destruct Hi as (e & <- & He). apply in_map. eapply in_ddel, He.
Qed.
Lemma hgood_ddel k h : hgood h -> hgood (ddel k h).
Proof.
  intros [H1 H2]. split; [apply nodup_ddel; exact H1|]. rewrite Forall_forall in H2 |- *. intros e He. apply H2. eapply in_ddel, He.
Qed.
Lemma hgood_get k v h : hgood h -> dget k h = Some v -> scal v.
Proof. intros [_ H] E. apply dget_in in E. rewrite Forall_forall in H. apply (H _ E). Qed.

(** reading back *)
Lemma header_of_get l : forall (acc : header) k, NoDup (map fst l) ->
  dget k (fold_left (fun h (e : list N * jval) => match val_of (snd e) with Some v => dset (fst e) v h | None => h end) l acc)
  = match dget k l with Some j => match val_of j with Some v => Some v | None => dget k acc end | None => dget k acc end.
Proof.
  induction l as [|[k' j] l IH]; intros acc k Hn; [reflexivity|]. cbn [map fst] in Hn. inversion Hn as [|? ? Hni Hn2]; subst. cbn [fold_left fst snd]. rewrite IH by exact Hn2. cbn [dget].
  destruct (str_eqb k k') eqn:E.
  - apply str_eqb_spec in E. subst k'. assert (G : dget k l = None) by (apply dget_none; exact Hni). rewrite G. destruct (val_of j); [apply dget_dset_same|reflexivity].
  - assert (Hne : k <> k') by (intros ->; rewrite str_eqb_refl in E; discriminate). destruct (dget k l) as [j2|].
    + destruct (val_of j2); [reflexivity|]. destruct (val_of j); [apply dget_dset_other; exact Hne|reflexivity].
    + destruct (val_of j); [apply dget_dset_other; exact Hne|reflexivity].
Qed.
Definition jentry (name2 : list (list N * list N)) (e : list N * val) : list (list N * jval) :=
  (fst e, jv (snd e)) :: if str_eqb (fst e) s_name then [(s_name2, Jobj (map (fun kv : list N * list N => (fst kv, Jstr (snd kv))) name2))] else [].
Lemma jentry_keys name2 h k : In k (map fst (flat_map (jentry name2) h)) -> In k (dkeys h) \/ (k = s_name2 /\ In s_name (dkeys h)).
Proof.
  intros H. apply in_map_iff in H. destruct H as (x & <- & Hx). apply in_flat_map in Hx. destruct Hx as (e & He & Hx). unfold jentry in Hx. cbn [In] in Hx. destruct Hx as [<-|Hx].
  - left. cbn [fst]. apply in_map. exact He.
  - destruct (str_eqb (fst e) s_name) eqn:E; [|destruct Hx]. apply str_eqb_spec in E. destruct Hx as [<-|[]]. right. split; [reflexivity|]. rewrite <- E. apply in_map. exact He.
Qed.
Lemma jentry_nodup name2 h : NoDup (dkeys h) -> ~ In s_name2 (dkeys h) -> NoDup (map fst (flat_map (jentry name2) h)).
Proof.
  induction h as [|[k v] h IH]; intros H H2; [constructor|]. cbn [dkeys map fst] in H, H2. inversion H as [|? ? Hn Hd]; subst.
  assert (K : ~ In s_name2 (dkeys h)) by (intros Hi; apply H2; right; exact Hi). specialize (IH Hd K). change (flat_map (jentry name2) ((k, v) :: h)) with (jentry name2 (k, v) ++ flat_map (jentry name2) h). unfold jentry at 1. cbn [fst snd]. destruct (str_eqb k s_name) eqn:E.
  - apply str_eqb_spec in E. subst k. cbn [app map fst]. constructor.
    + intros [Hi|Hi]; [discriminate|]. apply jentry_keys in Hi. destruct Hi as [Hi|[Hi _]]; [exact (Hn Hi)|discriminate].
    + constructor; [|exact IH]. intros Hi. apply jentry_keys in Hi. destruct Hi as [Hi|[_ Hi]]; [exact (K Hi)|exact (Hn Hi)].
  - cbn [app map fst]. constructor; [|exact IH]. intros Hi. apply jentry_keys in Hi. destruct Hi as [Hi|[Hi _]]; [exact (Hn Hi)|]. apply H2. left. exact Hi.
Qed.
Lemma header_back name2 h d : header_json name2 h = Jobj d -> hgood h -> dget s_name2 h = None -> forall k, dget k (header_of d) = dget k h.
Proof.
  intros E [H1 H2] H3 k. assert (d = flat_map (jentry name2) h) as -> by (unfold header_json in E; injection E as <-; reflexivity).
  apply dget_none in H3. unfold header_of. rewrite header_of_get by (apply jentry_nodup; assumption). pose proof (jentry_nodup name2 h H1 H3) as Hn.
  destruct (dget k h) as [v|] eqn:G.
  - assert (Hi : In (k, jv v) (flat_map (jentry name2) h)) by (apply in_flat_map; exists (k, v); split; [apply dget_in; exact G|left; reflexivity]).
    rewrite (dget_nodup _ _ _ Hn Hi), val_of_jv. reflexivity.
  - destruct (dget k (flat_map (jentry name2) h)) as [j|] eqn:F; [|reflexivity]. apply dget_in in F. assert (K : In k (map fst (flat_map (jentry name2) h))) by (apply in_map_iff; exists (k, j); auto).
    apply jentry_keys in K. apply dget_none in G. destruct K as [K|[K K2]]; [contradiction|]. subst k.
    apply in_flat_map in F. destruct F as (e & He & F). unfold jentry in F. cbn [In] in F. destruct F as [F|F].
    + injection F as F _. exfalso. apply H3. rewrite <- F. apply in_map. exact He.
    + destruct (str_eqb (fst e) s_name); [|destruct F]. destruct F as [F|[]]. injection F as <-. reflexivity.
Qed.
Lemma header_json_good name2 h : hgood h -> Forall (fun kv => Forall scalar (fst kv) /\ Forall scalar (snd kv)) name2 -> jgood (header_json name2 h).
Proof.
  intros [_ H] Hn. unfold header_json. change (jgood (Jobj (flat_map (jentry name2) h))).
  assert (Sn : Forall scalar s_name2) by (apply Forall_forall; intros c Hc; split; cbn in Hc; repeat destruct Hc as [<-|Hc]; try contradiction; try reflexivity).
  assert (G2 : jgood (Jobj (map (fun kv : list N * list N => (fst kv, Jstr (snd kv))) name2))).
  { split; cbn [numsok jstrs].
    - rewrite forallb_forall. intros e He. apply in_map_iff in He. destruct He as (x & <- & _). reflexivity.
    - apply Forall_forall. intros s Hs. apply in_flat_map in Hs. destruct Hs as (e & He & Hs). apply in_map_iff in He. destruct He as (x & <- & Hx). rewrite Forall_forall in Hn. destruct (Hn x Hx) as [A B].
      cbn [fst snd jstrs In] in Hs. destruct Hs as [<-|[<-|[]]]; assumption. }
  assert (G : Forall (fun e => Forall scalar (fst e) /\ jgood (snd e)) (flat_map (jentry name2) h)).
  { apply Forall_forall. intros e He. apply in_flat_map in He. destruct He as (x & Hx & He). rewrite Forall_forall in H. destruct (H x Hx) as [A B]. unfold jentry in He. cbn [In] in He.
    destruct He as [<-|He]; [split; [exact A|apply jgood_jv; exact B]|]. destruct (str_eqb (fst x) s_name); [|destruct He]. destruct He as [<-|[]]. split; [exact Sn|exact G2]. }
  split; cbn [numsok jstrs].
  - rewrite forallb_forall. intros e He. rewrite Forall_forall in G. destruct (G e He) as [_ [A _]]. exact A.
  - apply Forall_forall. intros s Hs. apply in_flat_map in Hs. destruct Hs as (e & He & Hs). rewrite Forall_forall in G. destruct (G e He) as [A [_ B]]. destruct Hs as [<-|Hs]; [exact A|].
    rewrite Forall_forall in B. apply B. exact Hs.
Qed.
