(** Proofs about Index.v: update_index. *)
From Verif Require Import PyBase PyInt Descent Paths Json Index Spec_Descent DescentProofs Spec_Index.
Set Implicit Arguments.
Open Scope list_scope.
Open Scope Z_scope.

Lemma unversioned_remove n : unversioned n -> remove_descent_from_filename n = Some n.
Proof. intros [H|(a & v & b & E & Hv & Hb & Hn)]; [apply remove_short; exact H|eapply remove_keeps; eassumption]. Qed.
Lemma base_name_remove n e : base_name n e -> remove_descent_from_filename n = Some e.
Proof. intros [[-> H]|(f & d & Hg & -> & ->)]; [apply unversioned_remove; exact H|apply remove_versioned; exact Hg]. Qed.
Lemma base_name_fun n e e' : base_name n e -> base_name n e' -> e = e'.
Proof. intros H H'. apply base_name_remove in H, H'. congruence. Qed.

Section NodeInd.
  Variable P : node -> Prop.
  Hypothesis HF : P File.
  Hypothesis HD : forall es, Forall (fun e => P (snd e)) es -> P (Dir es).
  Fixpoint node_ind2 (t : node) : P t :=
    match t with
    | File => HF
    | Dir es => HD ((fix go es : Forall (fun e => P (snd e)) es :=
                       match es with [] => Forall_nil _ | e :: r => Forall_cons e (node_ind2 (snd e)) (go r) end) es)
    end.
End NodeInd.

Lemma dset_same {V} k (v : V) d : dget k d = Some v -> dset k v d = d.
Proof.
  induction d as [|[k' v'] d IH]; cbn; [discriminate|]. destruct (str_eqb k k').
  - intros H. injection H as ->. reflexivity.
  - intros H. rewrite IH by exact H. reflexivity.
Qed.
Lemma dset_dset {V} k (v v' : V) d : dset k v (dset k v' d) = dset k v d.
Proof.
  induction d as [|[k' w] d IH]; cbn; [rewrite str_eqb_refl; reflexivity|].
  destruct (str_eqb k k') eqn:E; cbn; rewrite E; [reflexivity|]. rewrite IH. reflexivity.
Qed.

(** the old contents of a folder's entry *)
Definition old_sub (o : option json) : jdict := match o with Some (JDict s) => s | _ => [] end.

Section Upd.
  Variable dest : list N.

  (** pointwise description of what update_index does to one folder *)
  Inductive updated : node -> list N -> jdict -> jdict -> Prop :=
  | upd_intro : forall es path d d',
      (forall n es', In (n, Dir es') es -> exists s', dget n d' = Some (JDict s') /\ updated (Dir es') (path_join path n) (old_sub (dget n d)) s') ->
      (forall n e, In (n, File) es -> base_name n e ->
         dget e d' = match dget e d with Some v => Some v | None => Some (JStr (location dest path e)) end) ->
      (forall k v, (forall es', ~ In (k, Dir es') es) -> dget k d = Some v -> dget k d' = Some v) ->
      (forall k v, dget k d' = Some v -> dget k d = None -> (exists es', In (k, Dir es') es) \/
          (v = JStr (location dest path k) /\ exists n, In (n, File) es /\ base_name n k)) ->
      updated (Dir es) path d d'.

  Definition subs_of (es : list (list N * node)) :=
    map (fun e => (fst e, match snd e with File => None | Dir _ => Some (update_node dest (snd e)) end)) es.
  Lemma update_node_dir es index path : update_node dest (Dir es) index path = update_entries dest (subs_of es) path (map fst es) index.
  Proof. reflexivity. Qed.

  Lemma subs_keys es : map fst (subs_of es) = map fst es.
  Proof. unfold subs_of. rewrite map_map. reflexivity. Qed.
  Lemma subs_dir es n es' : NoDup (map fst es) -> In (n, Dir es') es -> dget n (subs_of es) = Some (Some (update_node dest (Dir es'))).
  Proof.
    intros Hn Hin. apply dget_nodup; [unfold dkeys; rewrite subs_keys; exact Hn|].
    unfold subs_of. apply in_map_iff. exists (n, Dir es'). split; [reflexivity|exact Hin].
  Qed.
  Lemma subs_not_dir es k : (forall es', ~ In (k, Dir es') es) -> forall f, dget k (subs_of es) <> Some (Some f).
  Proof.
    intros H f E. apply dget_in in E. unfold subs_of in E. apply in_map_iff in E. destruct E as ((n & t) & E & Hin). cbn in E.
    injection E as -> E. destruct t as [|es']; [discriminate|]. exact (H es' Hin).
  Qed.

  (** one entry *)
  Lemma entries_file es path n rest e d : In (n, File) es -> base_name n e -> (forall es', ~ In (e, Dir es') es) ->
    update_entries dest (subs_of es) path (n :: rest) (JDict d) =
    update_entries dest (subs_of es) path rest
      (JDict (match dget e d with Some _ => d | None => dset e (JStr (location dest path e)) d end)).
  Proof.
    intros Hin Hb Hd. cbn [update_entries]. rewrite (base_name_remove Hb).
    pose proof (@subs_not_dir es e Hd) as Hs. destruct (dget e (subs_of es)) as [[f|]|]; [exfalso; apply (Hs f); reflexivity|..];
      cbn [jin jput bind]; destruct (dget e d); reflexivity.
  Qed.
  Lemma entries_dir es path n rest es' d s' : NoDup (map fst es) -> In (n, Dir es') es -> unversioned n ->
    (dget n d = None \/ exists s, dget n d = Some (JDict s)) ->
    update_node dest (Dir es') (JDict (old_sub (dget n d))) (path_join path n) = Ok (JDict s') ->
    update_entries dest (subs_of es) path (n :: rest) (JDict d) =
    update_entries dest (subs_of es) path rest (JDict (dset n (JDict s') d)).
  Proof.
    intros Hn Hin Hu Ho Hs. cbn [update_entries]. rewrite (unversioned_remove Hu), (@subs_dir es n es' Hn Hin). cbn [jin bind].
    destruct Ho as [Ho|[s Ho]]; rewrite Ho in *; cbn [old_sub] in Hs.
    - cbn [jput bind jget]. rewrite dget_dset_same. cbn [bind]. rewrite Hs. cbn [bind jput]. rewrite dset_dset. reflexivity.
    - cbn [jput bind jget]. rewrite Ho. cbn [bind]. rewrite Hs. cbn [bind jput]. reflexivity.
  Qed.

  Lemma unversioned_base n : unversioned n -> base_name n n.
  Proof. intros H. left. split; [reflexivity|exact H]. Qed.

  Lemma update_node_spec t : tidy t -> forall d path, fits t d ->
    exists d', update_node dest t (JDict d) path = Ok (JDict d') /\ updated t path d d'.
  Proof.
    induction t as [|es IH] using node_ind2; intros Ht d path Hf; [inversion Ht|].
    inversion Ht as [? Hnd Hfile Hdir]; subst. rewrite update_node_dir. inversion Hf as [? ? Hfit]; subst.
    assert (G : forall todo done d0, es = done ++ todo ->
       (forall n es', In (n, Dir es') done -> exists s', dget n d0 = Some (JDict s') /\ updated (Dir es') (path_join path n) (old_sub (dget n d)) s') ->
       (forall k v, (forall es', ~ In (k, Dir es') done) -> dget k d = Some v -> dget k d0 = Some v) ->
       (forall n e, In (n, File) done -> base_name n e -> dget e d0 <> None) ->
       (forall k v, dget k d0 = Some v -> dget k d = None -> (exists es', In (k, Dir es') done) \/
          (v = JStr (location dest path k) /\ exists n, In (n, File) done /\ base_name n k)) ->
       exists d', update_entries dest (subs_of es) path (map fst todo) (JDict d0) = Ok (JDict d') /\ updated (Dir es) path d d').
    2: { apply (G es [] d eq_refl); try (intros; contradiction); [intros; assumption|]. intros k v E1 E2. congruence. }
    induction todo as [|[n t] todo IHt]; intros done d0 Ees HD HA HB HC.
    - rewrite app_nil_r in Ees. subst done. exists d0. split; [reflexivity|]. constructor; [exact HD|..].
      + intros n e Hin Hb. destruct (Hfile n Hin) as (e' & Hb' & He). assert (e' = e) by (eapply base_name_fun; eassumption). subst e'.
        destruct (dget e d) as [v|] eqn:Ed; [apply HA; [exact He|exact Ed]|].
        destruct (dget e d0) as [v|] eqn:Ed0; [|exfalso; eapply HB; eassumption].
        destruct (HC e v Ed0 Ed) as [[es' Hc]|[-> _]]; [exfalso; exact (He es' Hc)|reflexivity].
      + exact HA.
      + exact HC.
    - assert (Hin : In (n, t) es) by (rewrite Ees; apply in_or_app; right; left; reflexivity).
      assert (Hnn : forall x, ~ In (n, x) done).
      { intros x Hx. rewrite Ees, map_app in Hnd. cbn [map fst] in Hnd. apply NoDup_remove_2 in Hnd. apply Hnd. apply in_or_app. left.
        apply (in_map fst) in Hx. exact Hx. }
      assert (Ees' : es = (done ++ [(n, t)]) ++ todo) by (rewrite <- app_assoc; exact Ees).
      assert (Hsub : forall x, In x done -> In x es) by (intros x Hx; rewrite Ees; apply in_or_app; left; exact Hx).
      cbn [map fst]. destruct t as [|es'].
      + destruct (Hfile n Hin) as (e & Hb & He). rewrite (@entries_file es path n (map fst todo) e d0 Hin Hb He).
        assert (Hkeep : forall k v, dget k d0 = Some v -> dget k (match dget e d0 with Some _ => d0 | None => dset e (JStr (location dest path e)) d0 end) = Some v).
        { intros k v Hk. destruct (dget e d0) eqn:Ed; [exact Hk|]. rewrite dget_dset_other; [exact Hk|]. intros ->. congruence. }
        apply (IHt (done ++ [(n, File)])); [exact Ees'|..].
        * intros m es' Hm. apply in_app_or in Hm. destruct Hm as [Hm|[Hm|[]]]; [|discriminate].
          destruct (HD m es' Hm) as (s' & Hs & Hu). exists s'. split; [apply Hkeep; exact Hs|exact Hu].
        * intros k v Hk Hd. apply Hkeep. apply HA; [|exact Hd]. intros es' Hx. apply (Hk es'). apply in_or_app. left. exact Hx.
        * intros m e' Hm Hbm. apply in_app_or in Hm. destruct Hm as [Hm|[Hm|[]]].
          -- specialize (HB m e' Hm Hbm). destruct (dget e' d0) as [w|] eqn:Ee; [|congruence]. intros Hx. specialize (Hkeep _ _ Ee). assert (E0 : None = Some w) by (etransitivity; [symmetry; exact Hx|exact Hkeep]). discriminate E0.
          -- injection Hm as <-. assert (e' = e) by (eapply base_name_fun; eassumption). subst e'.
             destruct (dget e d0) eqn:Ed; [congruence|]. rewrite dget_dset_same. discriminate.
        * intros k v Hk Hd. assert (Hc : (exists v', dget k d0 = Some v' /\ v' = v) \/ (k = e /\ v = JStr (location dest path e))).
          { destruct (dget e d0) eqn:Ed; [left; exists v; auto|]. destruct (str_eq_dec k e) as [->|Hne].
            - right. rewrite dget_dset_same in Hk. split; congruence.
            - left. rewrite dget_dset_other in Hk by exact Hne. exists v; auto. }
          destruct Hc as [(v' & Hk' & ->)|[-> ->]].
          -- destruct (HC k v Hk' Hd) as [[es' Hx]|[-> (m & Hm & Hbm)]]; [left; exists es'; apply in_or_app; left; exact Hx|].
             right. split; [reflexivity|]. exists m. split; [apply in_or_app; left; exact Hm|exact Hbm].
          -- right. split; [reflexivity|]. exists n. split; [apply in_or_app; right; left; reflexivity|exact Hb].
      + destruct (Hdir n es' Hin) as [Hun Ht'].
        assert (Hn0 : dget n d0 = dget n d).
        { destruct (dget n d) as [v|] eqn:Ed; [apply HA; [intros x; apply Hnn|exact Ed]|].
          destruct (dget n d0) as [v|] eqn:Ed0; [|reflexivity].
          destruct (HC n v Ed0 Ed) as [[x Hc]|[_ (m & Hm & Hbm)]]; exfalso; [exact (Hnn _ Hc)|].
          destruct (Hfile m (Hsub _ Hm)) as (e' & Hb' & He). assert (e' = n) by (eapply base_name_fun; eassumption). subst e'. exact (He es' Hin). }
        assert (IHn : tidy (Dir es') -> forall d path, fits (Dir es') d -> exists d', update_node dest (Dir es') (JDict d) path = Ok (JDict d') /\ updated (Dir es') path d d').
        { rewrite Forall_forall in IH. exact (IH (n, Dir es') Hin). }
        assert (Ho : dget n d = None \/ exists s, dget n d = Some (JDict s)) by (destruct (Hfit n es' Hin) as [Hx|(s & Hx & _)]; [left; exact Hx|right; exists s; exact Hx]).
        assert (Hff : fits (Dir es') (old_sub (dget n d))).
        { destruct (Hfit n es' Hin) as [Hx|(s & Hx & Hy)]; rewrite Hx; [|exact Hy]. cbn. constructor. intros; left; reflexivity. }
        destruct (IHn Ht' _ (path_join path n) Hff) as (s' & Es & Us).
        rewrite (@entries_dir es path n (map fst todo) es' d0 s' Hnd Hin Hun); [|rewrite Hn0; exact Ho|rewrite Hn0; exact Es].
        apply (IHt (done ++ [(n, Dir es')])); [exact Ees'|..].
        * intros m es2 Hm. apply in_app_or in Hm. destruct Hm as [Hm|[Hm|[]]].
          -- destruct (HD m es2 Hm) as (s2 & Hs & Hu). exists s2. split; [|exact Hu]. rewrite dget_dset_other; [exact Hs|]. intros ->. exact (Hnn _ Hm).
          -- injection Hm as <- <-. exists s'. split; [apply dget_dset_same|exact Us].
        * intros k v Hk Hd. rewrite dget_dset_other; [apply HA; [|exact Hd]|].
          -- intros es2 Hx. apply (Hk es2). apply in_or_app. left. exact Hx.
          -- intros ->. apply (Hk es'). apply in_or_app. right. left. reflexivity.
        * intros m e' Hm Hbm. apply in_app_or in Hm. destruct Hm as [Hm|[Hm|[]]]; [|discriminate].
          destruct (str_eq_dec e' n) as [->|Hne]; [rewrite dget_dset_same; discriminate|]. rewrite dget_dset_other by exact Hne. eapply HB; eassumption.
        * intros k v Hk Hd. destruct (str_eq_dec k n) as [->|Hne].
          -- left. exists es'. apply in_or_app. right. left. reflexivity.
          -- rewrite dget_dset_other in Hk by exact Hne. destruct (HC k v Hk Hd) as [[es2 Hx]|[-> (m & Hm & Hbm)]]; [left; exists es2; apply in_or_app; left; exact Hx|].
             right. split; [reflexivity|]. exists m. split; [apply in_or_app; left; exact Hm|exact Hbm].
  Qed.

  Lemma folder_dec (es : list (list N * node)) k : NoDup (map fst es) -> (exists es', In (k, Dir es') es) \/ (forall es', ~ In (k, Dir es') es).
  Proof.
    intros Hn. destruct (dget k es) as [[|es']|] eqn:E.
    - right. intros es' Hin. apply dget_nodup in Hin; [congruence|exact Hn].
    - left. exists es'. apply dget_in. exact E.
    - right. intros es' Hin. apply dget_nodup in Hin; [congruence|exact Hn].
  Qed.
  Lemma at_path_cons' k p d : p <> [] -> at_path (k :: p) d = match dget k d with Some (JDict d') => at_path p d' | _ => None end.
  Proof. intros H. cbn [at_path]. destruct (dget k d) as [[]|]; destruct p; try congruence; reflexivity. Qed.

  Definition leaf (v : json) : Prop := forall d, v <> JDict d.

  Lemma fits_old es es' d n : fits (Dir es) d -> In (n, Dir es') es -> fits (Dir es') (old_sub (dget n d)).
  Proof.
    intros H Hin. inversion H as [? ? Hf]; subst. destruct (Hf n es' Hin) as [->|(s & -> & Hs)]; [|exact Hs].
    constructor. intros; left; reflexivity.
  Qed.

  Lemma upd_kept q : forall t path d d' v, updated t path d d' -> tidy t -> fits t d -> leaf v -> at_path q d = Some v -> at_path q d' = Some v.
  Proof.
    induction q as [|k q IH]; intros t path d d' v Hu Ht Hf Hl Ha; [injection Ha as <-; exfalso; exact (Hl d eq_refl)|].
    inversion Hu as [es ? ? ? HD HB HA HC]; subst. inversion Ht as [? Hn Hfile Hdir]; subst.
    destruct (folder_dec es k Hn) as [[es' Hin]|Hno].
    - destruct (HD k es' Hin) as (s' & Es & Us). pose proof (@fits_old es es' d k Hf Hin) as Hfo.
      inversion Hf as [? ? Hf']; subst. destruct (list_eq_dec str_eq_dec q []) as [->|Hq].
      + cbn [at_path] in Ha. destruct (Hf' k es' Hin) as [E|(s & E & _)]; rewrite E in Ha; [discriminate|]. injection Ha as <-. exfalso; exact (Hl s eq_refl).
      + rewrite at_path_cons' in * by exact Hq. rewrite Es. destruct (Hf' k es' Hin) as [E|(s & E & _)]; rewrite E in *; [discriminate|]. cbn [old_sub] in *.
        eapply IH; [exact Us|apply (Hdir k es' Hin)|exact Hfo|exact Hl|exact Ha].
    - destruct (list_eq_dec str_eq_dec q []) as [->|Hq].
      + cbn [at_path] in *. destruct (dget k d) as [w|] eqn:E; [|discriminate]. rewrite (HA k w Hno E). exact Ha.
      + rewrite at_path_cons' in * by exact Hq. destruct (dget k d) as [w|] eqn:E; [|discriminate]. rewrite (HA k w Hno E). exact Ha.
  Qed.
  Lemma upd_kept_dict q : forall t path d d' s, updated t path d d' -> tidy t -> fits t d -> at_path q d = Some (JDict s) -> exists s', at_path q d' = Some (JDict s').
  Proof.
    induction q as [|k q IH]; intros t path d d' v Hu Ht Hf Ha; [exists d'; reflexivity|].
    inversion Hu as [es ? ? ? HD HB HA HC]; subst. inversion Ht as [? Hn Hfile Hdir]; subst.
    destruct (folder_dec es k Hn) as [[es' Hin]|Hno].
    - destruct (HD k es' Hin) as (s' & Es & Us). pose proof (@fits_old es es' d k Hf Hin) as Hfo.
      inversion Hf as [? ? Hf']; subst. destruct (list_eq_dec str_eq_dec q []) as [->|Hq].
      + exists s'. cbn [at_path]. rewrite Es. reflexivity.
      + rewrite at_path_cons' in * by exact Hq. rewrite Es. destruct (Hf' k es' Hin) as [E|(s & E & _)]; rewrite E in *; [discriminate|]. cbn [old_sub] in *.
        eapply IH; [exact Us|apply (Hdir k es' Hin)|exact Hfo|exact Ha].
    - destruct (list_eq_dec str_eq_dec q []) as [->|Hq].
      + cbn [at_path] in *. destruct (dget k d) as [w|] eqn:E; [|discriminate]. rewrite (HA k w Hno E). injection Ha as ->. eexists; reflexivity.
      + rewrite at_path_cons' in * by exact Hq. destruct (dget k d) as [w|] eqn:E; [|discriminate]. rewrite (HA k w Hno E). exists v. exact Ha.
  Qed.

  Lemma at_path_old k q d : q <> [] -> (dget k d = None \/ exists s, dget k d = Some (JDict s)) -> at_path (k :: q) d = at_path q (old_sub (dget k d)).
  Proof.
    intros Hq Ho. rewrite at_path_cons' by exact Hq. destruct Ho as [E|[s E]]; rewrite E; [|reflexivity].
    cbn. destruct q as [|x [|y q]]; [congruence|reflexivity|reflexivity].
  Qed.
  (** where a file of the tree is found afterwards *)
  Lemma upd_file p : forall t path d d' e, updated t path d d' -> tidy t -> fits t d -> file_at t p e ->
    at_path (p ++ [e]) d' = match at_path (p ++ [e]) d with Some v => Some v | None => Some (JStr (location dest (path_joins path p) e)) end.
  Proof.
    induction p as [|k p IH]; intros t path d d' e Hu Ht Hf Ha;
      inversion Hu as [es ? ? ? HD HB HA HC]; subst; inversion Ht as [? Hn Hfile Hdir]; subst; inversion Ha; subst.
    - cbn [app at_path path_joins fold_left]. rewrite (HB n e) by assumption. destruct (dget e d); reflexivity.
    - assert (Hin : In (k, Dir es') es) by assumption. destruct (HD k es' Hin) as (s' & Es & Us). pose proof (@fits_old es es' d k Hf Hin) as Hfo.
      inversion Hf as [? ? Hf']; subst. assert (Hq : p ++ [e] <> []) by (destruct p; discriminate).
      cbn [app]. rewrite (@at_path_old k (p ++ [e]) d) by first [exact Hq|destruct (Hf' k es' Hin) as [E|(s & E & _)]; [left; exact E|right; exists s; exact E]].
      rewrite at_path_cons' by exact Hq. rewrite Es. cbn [path_joins fold_left].
      eapply IH; [exact Us|apply (Hdir k es' Hin)|exact Hfo|assumption].
  Qed.
  Lemma upd_folder p : forall t path d d', updated t path d d' -> tidy t -> folder_at t p -> exists s, at_path p d' = Some (JDict s).
  Proof.
    induction p as [|k p IH]; intros t path d d' Hu Ht Ha; [exists d'; reflexivity|].
    inversion Hu as [es ? ? ? HD HB HA HC]; subst; inversion Ht as [? Hn Hfile Hdir]; subst; inversion Ha; subst.
    assert (Hin : In (k, Dir es') es) by assumption. destruct (HD k es' Hin) as (s' & Es & Us).
    destruct (list_eq_dec str_eq_dec p []) as [->|Hq]; [exists s'; cbn; rewrite Es; reflexivity|].
    rewrite at_path_cons' by exact Hq. rewrite Es. eapply IH; [exact Us|apply (Hdir k es' Hin)|assumption].
  Qed.
  (** nothing else appears *)
  Lemma upd_new q : forall t path d d' v, updated t path d d' -> tidy t -> fits t d -> at_path q d' = Some v -> at_path q d = None ->
    (folder_at t q) \/ (exists p e, q = p ++ [e] /\ file_at t p e).
  Proof.
    induction q as [|k q IH]; intros t path d d' v Hu Ht Hf Ha Hd; [discriminate Hd|].
    inversion Hu as [es ? ? ? HD HB HA HC]; subst. inversion Ht as [? Hn Hfile Hdir]; subst.
    destruct (folder_dec es k Hn) as [[es' Hin]|Hno].
    - destruct (list_eq_dec str_eq_dec q []) as [->|Hq]; [left; econstructor; [exact Hin|constructor]|].
      destruct (HD k es' Hin) as (s' & Es & Us). pose proof (@fits_old es es' d k Hf Hin) as Hfo. inversion Hf as [? ? Hf']; subst.
      rewrite at_path_old in Hd by first [exact Hq|destruct (Hf' k es' Hin) as [E|(s & E & _)]; [left; exact E|right; exists s; exact E]].
      rewrite at_path_cons' in Ha by exact Hq. rewrite Es in Ha.
      destruct (IH _ _ _ _ _ Us (proj2 (Hdir k es' Hin)) Hfo Ha Hd) as [H|(p & e & -> & H)].
      + left. econstructor; eassumption.
      + right. exists (k :: p), e. split; [reflexivity|econstructor; eassumption].
    - assert (Hk : exists w, dget k d' = Some w) by (cbn [at_path] in Ha; destruct (dget k d') as [w|]; [exists w; reflexivity|discriminate]).
      destruct Hk as [w Hk]. destruct (dget k d) as [x|] eqn:Ex.
      + exfalso. rewrite (HA k x Hno Ex) in Hk. injection Hk as <-. cbn [at_path] in Ha, Hd. rewrite (HA k x Hno Ex) in Ha. rewrite Ex in Hd.
        destruct q; [discriminate|]. destruct x; congruence.
      + destruct (HC k w Hk Ex) as [[es' Hc]|[-> (n & Hin & Hb)]]; [exfalso; exact (Hno es' Hc)|].
        cbn [at_path] in Ha. rewrite Hk in Ha. destruct q as [|x q]; [|discriminate].
        right. exists [], k. split; [reflexivity|]. econstructor; eassumption.
  Qed.

  (** updating again changes nothing *)
  Inductive complete : node -> jdict -> Prop :=
  | complete_dir : forall es d, (forall n e, In (n, File) es -> base_name n e -> dget e d <> None) ->
      (forall n es', In (n, Dir es') es -> exists s, dget n d = Some (JDict s) /\ complete (Dir es') s) -> complete (Dir es) d.
  Lemma upd_complete t : forall path d d', updated t path d d' -> complete t d'.
  Proof.
    induction t as [|es IH] using node_ind2; intros path d d' H; inversion H as [? ? ? ? HD HB HA HC]; subst. constructor.
    - intros n e Hin Hb. rewrite (HB n e Hin Hb). destruct (dget e d); discriminate.
    - intros n es' Hin. destruct (HD n es' Hin) as (s' & Es & Us). exists s'. split; [exact Es|].
      rewrite Forall_forall in IH. exact (IH (n, Dir es') Hin _ _ _ Us).
  Qed.
  Lemma complete_id t : tidy t -> forall d path, complete t d -> update_node dest t (JDict d) path = Ok (JDict d).
  Proof.
    induction t as [|es IH] using node_ind2; intros Ht d path Hc; [inversion Ht|].
    inversion Ht as [? Hn Hfile Hdir]; subst. inversion Hc as [? ? C1 C2]; subst. rewrite update_node_dir.
    assert (G : forall todo, incl todo es -> update_entries dest (subs_of es) path (map fst todo) (JDict d) = Ok (JDict d)); [|apply G; apply incl_refl].
    induction todo as [|[n t] todo IHt]; intros Hi; [reflexivity|].
    assert (Hin : In (n, t) es) by (apply Hi; left; reflexivity). cbn [map fst]. destruct t as [|es'].
    - destruct (Hfile n Hin) as (e & Hb & He). rewrite (@entries_file es path n (map fst todo) e d Hin Hb He).
      pose proof (C1 n e Hin Hb). destruct (dget e d); [|congruence]. apply IHt. intros x Hx. apply Hi. right. exact Hx.
    - destruct (C2 n es' Hin) as (s & Es & Cs). destruct (Hdir n es' Hin) as [Hu Ht'].
      rewrite (@entries_dir es path n (map fst todo) es' d s Hn Hin Hu); [|right; exists s; exact Es|].
      + rewrite dset_same by exact Es. apply IHt. intros x Hx. apply Hi. right. exact Hx.
      + rewrite Es. cbn [old_sub]. rewrite Forall_forall in IH. exact (IH (n, Dir es') Hin Ht' s _ Cs).
  Qed.
End Upd.
