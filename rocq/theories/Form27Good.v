(** The strings of the file .elem.json of an ordinary form come from the form: they can be written and read. *)
From Coq Require Import String.
From Verif Require Import PyBase PyInt Utf Brace Header CalcOffset JsonText JsonTextProofs JsonObj Container Pipeline ObjCode Payload MetaObj MetaObjBase MetaObjGood FormCode FormElem FormElemBase FormJson FormJsonGood Form27 Form27Json.
Set Implicit Arguments.
Open Scope list_scope.
Open Scope N_scope.

Tactic Notation "step" constr(H) "as" ident(x) ident(E) := match type of H with context [bind ?r _] => destruct r as [x|] eqn:E; [cbn [bind] in H|discriminate H] end.
Lemma Forall_filter' (A : Type) (P : A -> Prop) f l : Forall P l -> Forall P (filter f l).
Proof. intros H. induction H as [|x l Hx H IH]; cbn [filter]; [constructor|]. destruct (f x); [constructor; assumption|exact IH]. Qed.
Lemma sc_calc_id parts : Forall (fun s => sc s) parts -> sc (calc_id parts).
Proof. intros H. apply sc_join; [scalars|apply Forall_filter', H]. Qed.
Lemma sc_inner key : sc key -> sc (inner_path key).
Proof. intros H. unfold inner_path, str_replace. apply sc_join; [scalars|]. apply split_go_sc, H. Qed.
Lemma sc_pages_word : sc s_pages. Proof. scalars. Qed.
Lemma lsc_zput i x l l' : lsc l -> scal x -> zput i x l = Ok l' -> lsc l'.
Proof.
  unfold zput. intros Hl Hx H. destruct (i <? 0)%Z; [discriminate|]. revert l' H. generalize (Z.to_nat i) as n.
  induction Hl as [|y l Hy Hl IH]; intros n l' H; destruct n as [|n]; cbn [Header.vset] in H; try discriminate.
  - injection H as <-. constructor; assumption.
  - destruct (Header.vset n x l) as [r|] eqn:E; [|discriminate]. cbn [bind] in H. injection H as <-. constructor; [exact Hy|exact (IH _ _ E)].
Qed.
Lemma lsc_slice l a b : lsc l -> lsc (pyslice l a b).
Proof. intros H. unfold pyslice. apply Forall_firstn', Forall_skipn', H. Qed.
Lemma lsc_del l a b : lsc l -> lsc (pydel l a b).
Proof. intros H. unfold pydel. apply Forall_app. split; [apply Forall_firstn', H|exact (Forall_skipn' _ H)]. Qed.
Lemma lsc_vneg k l x : lsc l -> vneg k l = Ok x -> scal x.
Proof. unfold vneg. intros H E. destruct (_ <? _)%nat; [discriminate|]. eapply lsc_vnth; eassumption. Qed.
Lemma sc_opt o : oall (fun s => sc s) o -> sc (opt_str o).
Proof. destruct o; [exact (fun H => H)|constructor]. Qed.
Lemma dupdate_sc d2 : forall d, d7_sc d -> d7_sc d2 -> d7_sc (dupdate d d2).
Proof. unfold dupdate. induction d2 as [|[k e] d2 IH]; intros d Hd H; [exact Hd|]. inversion H; subst. cbn [fold_left fst snd]. apply IH; [apply Forall_dset; assumption|assumption]. Qed.

Lemma page_list_sc path : sc path -> forall n l d names d', lsc l -> d7_sc d -> dec_page_list path n l d = Ok (names, d') -> Forall (fun s => sc s) names /\ d7_sc d'.
Proof.
  intros Hp. induction n as [|n IH]; intros l d names d' Hl Hd H; cbn [dec_page_list] in H; [injection H as <- <-; split; [constructor|exact Hd]|].
  destruct l as [|rp r]; [discriminate|]. inversion Hl as [|? ? Hrp Hr]; subst. step H as f E1. step H as s E2. step H as t E3.
  assert (Ht : sc (str_decode t)) by (apply sc_decode; eapply scal_vstr; [|exact E3]; eapply scal_vget; eassumption).
  destruct (dec_page_list path n r _) as [[ns d1]|] eqn:E4; [|discriminate]. cbn [bind] in H. injection H as <- <-.
  assert (Hd2 : d7_sc (dset (calc_id [path; str_decode t]) (EPage f rp None) d)).
  { apply Forall_dset; [|exact Hd]. split; [exact (sc_calc_id (Forall_cons _ Hp (Forall_cons _ Ht (Forall_nil _))))|]. split; [eapply scal_vget; eassumption|]. split; [exact Hrp|exact I]. }
  destruct (IH _ _ _ _ Hr Hd2 E4) as [G1 G2].
  split; [constructor; assumption|exact G2].
Qed.
Lemma infos_sc path rd at_ extra : sc path -> lsc rd -> forall names i d d', Forall (fun s => sc s) names -> d7_sc d -> dec_infos path rd at_ extra i names d = Ok d' -> d7_sc d'.
Proof.
  intros Hp Hrd. induction names as [|n names IH]; intros i d d' Hn Hd H; cbn [dec_infos] in H; [injection H as <-; exact Hd|]. inversion Hn as [|? ? Hn1 Hn2]; subst.
  destruct (dget (calc_id [path; n]) d) as [[f raw info| |]|] eqn:E; try discriminate.
  assert (He : e7_sc (EPage f raw info)) by (exact (@dget_all _ e7_sc _ _ _ (Forall_impl _ (fun e (H : sc (fst e) /\ e7_sc (snd e)) => proj2 H) Hd) E)).
  destruct He as (H1 & H2 & _). refine (IH _ _ _ Hn2 _ H). apply Forall_dset; [|exact Hd]. split; [apply sc_calc_id; constructor; [exact Hp|constructor; [exact Hn1|constructor]]|].
  split; [exact H1|]. split; [exact H2|]. apply lsc_slice, Hrd.
Qed.
Lemma pages_sc path rd rd' names d : sc path -> lsc rd -> dec_pages path rd = Ok (rd', names, d) -> lsc rd' /\ Forall (fun s => sc s) names /\ d7_sc d.
Proof.
  intros Hp Hrd H. unfold dec_pages in H. step H as off E1. step H as p E2. step H as pl E3. step H as x0 E4. step H as c E5. step H as n E6. destruct (n <? 0)%Z; [discriminate|].
  assert (Hpl : lsc pl) by (eapply scal_vlist; [|exact E3]; eapply lsc_py; eassumption).
  destruct (dec_page_list path (Z.to_nat n) (skipn 2 pl) []) as [[ns d1]|] eqn:E7; [|discriminate]. cbn [bind] in H.
  destruct (page_list_sc Hp _ (Forall_skipn' 2 Hpl) (Forall_nil _) E7) as [A1 A2].
  step H as rd1 E8. assert (R1 : lsc rd1) by (eapply lsc_zput; [exact Hrd| |exact E8]; apply scal_list, lsc_del, Hpl).
  step H as c2 E9. step H as k E10. step H as d2 E11. step H as rd2 E12. injection H as <- <- <-.
  split; [|split; [exact A1|]].
  - eapply lsc_zput; [apply lsc_del, R1| |exact E12]. apply scal_str. scalars.
  - refine (infos_sc _ _ Hp R1 _ A1 _ E11). apply Forall_dset; [|exact A2]. split; [apply sc_calc_id; constructor; [exact Hp|constructor; [exact sc_pages_word|constructor]]|exact A1].
Qed.
Lemma page_name_sc pages page pn : Forall (fun s => sc s) pages -> page_name pages page = Ok pn -> oall (fun s => sc s) pn.
Proof.
  unfold page_name. intros Hp H. destruct (_ && _); [|injection H as <-; exact I]. step H as s E1. step H as i E2. destruct (str_eqb s (str_of_int i)); [|discriminate]. destruct (_ <? 0)%Z in H; [discriminate|].
  destruct (nth_error pages _) as [n|] eqn:E3 in H; [|discriminate]. injection H as <-. cbn [oall]. rewrite Forall_forall in Hp. apply Hp. eapply nth_error_In, E3.
Qed.
Lemma types27_sc ty tn : dget ty types27 = Some tn -> sc tn.
Proof.
  intros H. assert (G : Forall (fun e : list N * list N => sc (snd e)) types27).
  { apply Forall_forall. intros e He. assert (B : forallb (fun e : list N * list N => forallb (fun c => (c <? 128)) (snd e)) types27 = true) by (vm_compute; reflexivity).
    rewrite forallb_forall in B. specialize (B e He). rewrite forallb_forall in B. apply Forall_forall. intros c Hc. specialize (B c Hc). split; [lia|unfold is_surrogate; lia]. }
  exact (@dget_all _ (fun s => sc s) _ _ _ G H).
Qed.
Section Elem.
Variable pidx : list (list N * list N).
Hypothesis Hpidx : Forall (fun e : list N * list N => sc (snd e)) pidx.
Lemma pidx_sc id : oall (fun s => sc s) (dget id pidx).
Proof. destruct (dget id pidx) as [s|] eqn:E; [|exact I]. exact (@dget_all _ (fun s => sc s) _ _ _ Hpidx E). Qed.
Lemma run_sc (one : val -> dict27 -> res (titem * dict27)) : (forall v d x d', scal v -> d7_sc d -> one v d = Ok (x, d') -> t7_sc x /\ d7_sc d') ->
  forall n l d xs d', lsc l -> d7_sc d -> dec_run one n l d = Ok (xs, d') -> Forall t7_sc xs /\ d7_sc d'.
Proof.
  intros Ho. induction n as [|n IH]; intros l d xs d' Hl Hd H; cbn [dec_run] in H; [injection H as <- <-; split; [constructor|exact Hd]|].
  destruct l as [|v r]; [discriminate|]. inversion Hl as [|? ? Hv Hr]; subst. destruct (one v d) as [[x d1]|] eqn:E1; [|discriminate]. cbn [bind] in H. destruct (dec_run one n r d1) as [[ys d2]|] eqn:E2; [|discriminate]. cbn [bind] in H. injection H as <- <-.
  destruct (Ho _ _ _ _ Hv Hd E1) as [A1 A2]. destruct (IH _ _ _ _ Hr A2 E2) as [B1 B2]. split; [constructor; assumption|exact B2].
Qed.
Lemma section_sc (one : val -> dict27 -> res (titem * dict27)) : (forall v d x d', scal v -> d7_sc d -> one v d = Ok (x, d') -> t7_sc x /\ d7_sc d') ->
  forall sec d sec' xs d', lsc sec -> d7_sc d -> dec_section one sec d = Ok (sec', xs, d') -> lsc sec' /\ Forall t7_sc xs /\ d7_sc d'.
Proof.
  intros Ho sec d sec' xs d' Hs Hd H. unfold dec_section in H. step H as c E1. step H as n E2. destruct (n =? 0)%Z; [injection H as <- <- <-; split; [exact Hs|split; [constructor|exact Hd]]|]. destruct (n <? 0)%Z; [discriminate|].
  destruct (dec_run one (Z.to_nat n) (skipn 1 sec) d) as [[ys d1]|] eqn:E3; [|discriminate]. cbn [bind] in H.
  destruct (@run_sc one Ho _ _ _ _ _ (Forall_skipn' 1 Hs) Hd E3) as [A1 A2].
  assert (sec' = VStr kids_mark :: skipn (S (Z.to_nat n)) sec /\ xs = ys /\ d' = d1) as (-> & -> & ->) by (injection H as <- <- <-; auto).
  split; [constructor; [exact sc_mark|exact (Forall_skipn' (S (Z.to_nat n)) Hs)]|]. split; assumption.
Qed.
Lemma elem27_sc : forall fuel pages path v d x d', Forall (fun s => sc s) pages -> sc path -> scal v -> d7_sc d -> dec_elem27 pidx fuel pages path v d = Ok (x, d') -> t7_sc x /\ d7_sc d'.
Proof.
  induction fuel as [|fuel IH]; intros pages path v d x d' Hpg Hp Hv Hd H; [discriminate|]. cbn [dec_elem27] in H.
  step H as el E1. step H as ty0 E2. step H as ty E3. destruct (dget ty types27) as [tn|] eqn:E4; [|discriminate]. step H as nm0 E5. step H as nm1 E6. step H as nm E7. step H as geo E8. step H as page E9. step H as id0 E10. step H as id E11. step H as pn E12.
  assert (Hel : lsc el) by (eapply scal_vlist; eassumption).
  assert (Hnm : sc (str_decode nm)) by (apply sc_decode; eapply scal_vstr; [|exact E7]; eapply scal_vget; [|exact E6]; eapply lsc_vneg; eassumption).
  assert (Hid : sc id) by (eapply scal_vstr; [|exact E11]; eapply lsc_vnth; eassumption).
  assert (Hpn : oall (fun s => sc s) pn) by (eapply page_name_sc; eassumption). assert (Htn : sc tn) by (eapply types27_sc; eassumption).
  assert (Hkey : sc (calc_id [path; opt_str pn; str_decode nm])) by (apply sc_calc_id; constructor; [exact Hp|constructor; [apply sc_opt, Hpn|constructor; [exact Hnm|constructor]]]).
  assert (Hpid : sc (calc_id [path; opt_str pn])) by (apply sc_calc_id; constructor; [exact Hp|constructor; [apply sc_opt, Hpn|constructor]]).
  destruct (str_eqb tn n_panel).
  - step H as p2 E13. step H as pd0 E14. step H as pd E15. destruct (dec_pages _ pd) as [[[pd1 pages1] d1]|] eqn:E16; [|discriminate]. cbn [bind] in H.
    assert (Hp2 : scal p2) by (eapply lsc_vnth; eassumption). assert (Hpd : lsc pd) by (eapply scal_vlist; [|exact E15]; eapply scal_vget; eassumption).
    destruct (pages_sc (sc_inner Hkey) Hpd E16) as (A1 & A2 & A3).
    step H as p2' E17. assert (Hp2' : scal p2') by (eapply scal_vset; [exact Hp2| |exact E17]; apply scal_list, A1).
    assert (Hel2 : lsc (set_nth 2 p2' el)) by (apply Forall_set_nth; assumption).
    step H as last0 E18. step H as last E19. destruct (dec_section _ last d1) as [[[last' kids] d2]|] eqn:E20; [|discriminate]. cbn [bind] in H.
    assert (Hlast : lsc last) by (eapply scal_vlist; [|exact E19]; eapply lsc_vneg; eassumption).
    destruct (section_sc (dec_elem27 pidx fuel pages1 (inner_path (calc_id [path; opt_str pn; str_decode nm])))) with (2 := Hlast) (3 := A3) (4 := E20) as (B1 & B2 & B3).
    { intros v0 d0 x0 d0' Hv0 Hd0 E0. eapply IH; [| | | |exact E0]; [exact A2|apply sc_inner, Hkey|exact Hv0|exact Hd0]. }
    apply (f_equal (fun r => match r with Ok y => y | Err _ => (x, d') end)) in H. cbv beta iota in H. injection H as <- <-.
    split; [constructor; [exact Hnm|exact Htn|exact Hpn|intros l [= <-]; exact B2]|]. apply dupdate_sc; [|exact B3]. apply Forall_dset; [|exact Hd].
    split; [exact Hkey|]. split; [exact Hid|]. split; [exact Hpid|]. split; [|apply pidx_sc]. apply scal_list, Forall_set_nth; [exact Hel2|apply scal_list, B1].
  - injection H as <- <-. split; [constructor; [exact Hnm|exact Htn|exact Hpn|discriminate]|]. apply Forall_dset; [|exact Hd]. split; [exact Hkey|]. split; [exact Hid|]. split; [exact Hpid|]. split; [exact Hv|apply pidx_sc].
Qed.
End Elem.
Lemma prop27_dec_sc at_ raw p : scal raw -> prop27_dec at_ raw = Ok p -> p7_sc p.
Proof.
  unfold prop27_dec. intros H E. step E as n E1. step E as i0 E2. step E as i E3. injection E as <-. split; [eapply item_name_sc; eassumption|]. split; [|exact H]. eapply scal_vget; [eapply scal_vget; eassumption|exact E3].
Qed.
Lemma props27_dec_sc at_ sec sec' ps : lsc sec -> props27_dec at_ sec = Ok (sec', ps) -> lsc sec' /\ oall (Forall p7_sc) ps.
Proof.
  unfold props27_dec. intros H E. step E as c E1. step E as n E2. destruct (n =? 0)%Z; [injection E as <- <-; split; [exact H|exact I]|]. destruct (n <? 0)%Z; [discriminate|]. step E as ks E3. step E as qs E4.
  assert (sec' = VStr kids_mark :: skipn (S (Z.to_nat n)) sec /\ ps = Some qs) as [-> ->] by (injection E as <- <-; auto).
  split; [constructor; [exact sc_mark|exact (Forall_skipn' (S (Z.to_nat n)) H)]|]. cbn [oall]. eapply (mapm_all (P := scal)); [intros x y; apply prop27_dec_sc| |exact E4].
  unfold take_at in E3. destruct (_ <? _)%nat; [discriminate|]. assert (ks = firstn (Z.to_nat n) (skipn 1 sec)) as -> by congruence. apply Forall_firstn'. exact (Forall_skipn' 1 H).
Qed.
Lemma prop_ids_sc ps d : Forall p7_sc ps -> prop_ids ps = Ok d -> Forall (fun e : list N * list N => sc (snd e)) d.
Proof.
  unfold prop_ids. intros H E. refine (@fold_all _ _ _ p7_sc (fun d => Forall (fun e : list N * list N => sc (snd e)) d) _ (fun e x => eq_refl) _ _ _ _ _ E); [|constructor|exact H].
  intros b x b' Hb Hx Ef. cbn [bind] in Ef. step Ef as i E1. injection Ef as <-. apply Forall_dset; [apply Hx|exact Hb].
Qed.
Lemma index_sources_sc ids : Forall (fun e : list N * list N => sc (snd e)) ids -> forall n l d d', Forall (fun e : list N * list N => sc (snd e)) d -> index_sources ids n l d = Ok d' -> Forall (fun e : list N * list N => sc (snd e)) d'.
Proof.
  intros Hi. induction n as [|n IH]; intros l d d' Hd H; cbn [index_sources] in H; [injection H as <-; exact Hd|]. destruct l as [|e r]; [discriminate|]. step H as i E1. step H as a E2. step H as a1 E3. step H as a2 E4. step H as p E5.
  destruct (dget p ids) as [name|] eqn:E6.
  - destruct (id_str i) as [i'|] eqn:E7; [|discriminate]. cbn [bind] in H. refine (IH _ _ _ _ H). apply Forall_dset; [|exact Hd]. exact (@dget_all _ (fun s => sc s) _ _ _ Hi E6).
  - cbn [bind] in H. exact (IH _ _ _ Hd H).
Qed.
Lemma sources_index_sc ps ds d : oall (Forall p7_sc) ps -> sources_index ps ds = Ok d -> Forall (fun e : list N * list N => sc (snd e)) d.
Proof.
  unfold sources_index. intros Hp H. destruct ps as [[|p ps]|]; try (injection H as <-; constructor). step H as ids E1. step H as c E2. step H as n E3. destruct (n =? 0)%Z; [injection H as <-; constructor|]. destruct (n <? 0)%Z; [injection H as <-; constructor|]. step H as l E4.
  eapply index_sources_sc; [| |exact H]; [eapply prop_ids_sc; [exact Hp|exact E1]|constructor].
Qed.
Theorem elems27_decode_sc at_ raw raw' fe : lsc raw -> elems27_decode at_ raw = Ok (raw', fe) -> lsc raw' /\ f7_sc fe.
Proof.
  intros Hr H. unfold elems27_decode in H. step H as r2 E1. step H as sec0 E2. step H as sec E3. destruct (props27_dec at_ sec) as [[sec' props]|] eqn:E4; [|discriminate]. cbn [bind] in H.
  assert (Hr2 : scal r2) by (eapply lsc_vnth; eassumption). assert (Hsec : lsc sec) by (eapply scal_vlist; [|exact E3]; eapply scal_vget; eassumption). destruct (props27_dec_sc _ Hsec E4) as [A1 A2].
  step H as r2' E5. assert (Hr2' : scal r2') by (eapply scal_vset; [exact Hr2| |exact E5]; apply scal_list, A1). assert (Hraw1 : lsc (set_nth 2 r2' raw)) by (apply Forall_set_nth; assumption).
  step H as r1 E6. step H as pan0 E7. step H as ty E8. destruct (negb (is_str ty u_panel)); [discriminate|]. step H as r2b E9. step H as ds E10. step H as pidx E11. step H as pan E12. step H as p1 E13. step H as pl1 E14. step H as pd0 E15. step H as pd E16.
  pose proof (sources_index_sc _ _ A2 E11) as Hpidx.
  assert (Hr1 : scal r1) by (eapply lsc_vnth; eassumption). assert (Hpan : lsc pan) by (eapply scal_vlist; [|exact E12]; eapply scal_vget; eassumption). assert (Hp1 : scal p1) by (eapply lsc_vnth; eassumption).
  assert (Hpd : lsc pd) by (eapply scal_vlist; [|exact E16]; eapply lsc_vnth; [|exact E15]; eapply scal_vlist; eassumption).
  destruct (dec_pages [] pd) as [[[pd1 pages] d]|] eqn:E17; [|discriminate]. cbn [bind] in H. destruct (pages_sc (Forall_nil _) Hpd E17) as (B1 & B2 & B3).
  step H as p1' E18. assert (Hp1' : scal p1') by (eapply scal_vset; [exact Hp1| |exact E18]; apply scal_list, B1). assert (Hpan2 : lsc (set_nth 1 p1' pan)) by (apply Forall_set_nth; assumption).
  step H as s0 E19. step H as s E20. destruct (dec_section _ s d) as [[[s' tree] d1]|] eqn:E21; [|discriminate]. cbn [bind] in H.
  assert (Hs : lsc s) by (eapply scal_vlist; [|exact E20]; eapply lsc_vnth; eassumption).
  destruct (section_sc (dec_elem27 pidx (vdepth (VList s)) pages [])) with (2 := Hs) (3 := B3) (4 := E21) as (C1 & C2 & C3).
  { intros v0 d0 x0 d0' Hv0 Hd0 E0. eapply elem27_sc; [exact Hpidx| | | | |exact E0]; [exact B2|constructor|exact Hv0|exact Hd0]. }
  step H as r1' E22. apply (f_equal (fun r => match r with Ok y => y | Err _ => (raw', fe) end)) in H. cbv beta iota in H. pose proof (f_equal fst H) as E23. pose proof (f_equal snd H) as E24. cbn [fst snd] in E23, E24. rewrite <- E23, <- E24. clear H E23 E24.
  split; [|split; [exact A2|split; [exact C2|exact C3]]].
  apply Forall_set_nth; [exact Hraw1|]. eapply scal_vset; [exact Hr1| |exact E22]. apply scal_list, Forall_set_nth; [exact Hpan2|apply scal_list, C1].
Qed.
