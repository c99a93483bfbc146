(** Lists of parts, modules, further identifiers and the header list of an object. *)
From Coq Require Import String.
From Verif Require Import PyBase PyInt PyText Utf Cp1251 Codecs Brace Spec_Brace BraceMore JsonText JsonTextProofs JsonObj Header HeaderProofs Spec_Misc Pipeline Spec_Stage ObjCode Spec_Obj ObjCodeMain Payload
  Spec_Payload PayloadProofs MetaObj Spec_MetaObj MetaObjBase MetaObjPart MetaObjGood.
From Verif Require Props_Misc.
Open Scope list_scope.
Open Scope N_scope.

(** ** keys *)
Lemma key_fixed p k : In k (part_keys p) -> k <> s_uuid /\ k <> s_name /\ k <> s_name2 /\ k <> s_comment /\ k <> s_header /\ k <> s_obj_version /\ (forall m, k <> k_info m /\ k <> k_enc m).
Proof.
  destruct p; cbn [part_keys In]; intros H; repeat (destruct H as [H|H]); try contradiction; subst k;
    (split; [discriminate|split; [discriminate|split; [discriminate|split; [discriminate|split; [discriminate|split; [discriminate|intros m; split; discriminate]]]]]]).
Qed.
Lemma keys_fixed ps k : In k (flat_map part_keys ps) -> k <> s_uuid /\ k <> s_name /\ k <> s_name2 /\ k <> s_comment /\ k <> s_header /\ k <> s_obj_version /\ (forall m, k <> k_info m /\ k <> k_enc m).
Proof. intros H. apply in_flat_map in H. destruct H as (p & _ & H). eapply key_fixed, H. Qed.
Lemma here_app uuid (src : folder) a b : here uuid src (a ++ b) = here uuid src a ++ here uuid src b.
Proof. apply flat_map_app. Qed.
Lemma here_in uuid (src : folder) ns x : In x (here uuid src ns) <-> exists n, In n ns /\ x = dotted uuid n /\ dget x src <> None.
Proof.
  unfold here. rewrite in_flat_map. split.
  - intros (n & Hn & Hx). destruct (dget (dotted uuid n) src) eqn:E; [|destruct Hx]. destruct Hx as [<-|[]]. exists n. split; [exact Hn|]. split; [reflexivity|congruence].
  - intros (n & Hn & -> & Hx). exists n. split; [exact Hn|]. destruct (dget (dotted uuid n) src); [left; reflexivity|congruence].
Qed.

(** ** parts *)
Section P.
Variables (os : platform) (alnum : N -> bool) (src : folder) (uuid fname name comment : list N) (tree tree' : val).
Notation owned := (owns fname name).
Definition backs_ok (ps : list part) (own' : folder) (h' : header) : Prop :=
  forall (srcs out : folder) (h2 : header) files,
    (forall p n, In p ps -> owned p n -> dget n srcs = dget n own') -> (forall k, In k (flat_map part_keys ps) -> dget k h2 = dget k h') ->
    dget s_name h2 = Some (VStr name) -> dget s_comment h2 = Some (VStr comment) -> (forall p, In p ps -> dget (dotted uuid (part_num p)) out = None) ->
    exists out' h3, parts_back os alnum ps srcs fname uuid out h2 files = Ok (out', h3, files ++ here uuid src (map part_num ps)) /\
      (forall p, In p ps -> dget (dotted uuid (part_num p)) out' = dget (dotted uuid (part_num p)) src) /\
      (forall n, (forall p, In p ps -> n <> dotted uuid (part_num p)) -> dget n out' = dget n out) /\ (forall k, ~ In k (flat_map part_keys ps) -> dget k h3 = dget k h2).

Lemma parts_restored : forall ps (own : folder) (h : header),
  (forall p, In p ps -> entry_ok os alnum p tree comment (dget (dotted uuid (part_num p)) src)) ->
  ForallOrdPairs (fun p q => forall n, owned p n -> owned q n -> False) ps -> NoDup (flat_map part_keys ps) -> NoDup (map part_num ps) ->
  (forall p n, In p ps -> owned p n -> dget n own = None) ->
  (forall p, In p ps -> ~ owned p (dotted fname s_json) /\ ~ owned p (dotted fname s_idjson)) ->
  dget (dotted fname s_json) own = None -> dget (dotted fname s_idjson) own = None ->
  (forall k, In k (flat_map part_keys ps) -> dget k h = None) ->
  dget s_name h = Some (VStr name) -> dget s_comment h = Some (VStr comment) -> dget s_header h = Some tree' ->
  (forall at_, In (PTemplate at_) ps -> vat at_ tree' = vat at_ tree) ->
  hgood h -> Forall (Forall scalar) (flat_map part_keys ps) ->
  exists own' h', parts_out os alnum ps src uuid own fname h = Ok (own', h') /\
    (forall n, (forall p, In p ps -> ~ owned p n) -> dget n own' = dget n own) /\ (forall k, ~ In k (flat_map part_keys ps) -> dget k h' = dget k h) /\ hgood h' /\
    backs_ok ps own' h'.
Proof.
  induction ps as [|p ps IH]; intros own h He Hsep Hk Hnum Ho Hj Oj Oi Hkk Hn Hc Ht Hat Hg Hs.
  - exists own, h. split; [reflexivity|]. split; [reflexivity|]. split; [reflexivity|]. split; [exact Hg|]. intros srcs out h2 files _ _ _ _ _. exists out, h2. cbn [parts_back map here flat_map]. rewrite app_nil_r.
    split; [reflexivity|]. split; [intros p []|]. split; reflexivity.
  - inversion Hsep as [|? ? Hs1 Hs2]; subst. cbn [flat_map] in Hk, Hkk, Hs. apply Forall_app in Hs. destruct Hs as [Sp Sr]. cbn [map] in Hnum. inversion Hnum as [|? ? Hn1 Hn2]; subst.
    rewrite Forall_forall in Hs1.
    assert (Kd : forall k, In k (part_keys p) -> ~ In k (flat_map part_keys ps)).
    { intros k Ha Hb. revert Hk Ha Hb. clear. induction (part_keys p) as [|a l IHl]; intros Hk Ha Hb; [destruct Ha|]. cbn [app] in Hk. inversion Hk as [|? ? H1 H2]; subst.
      destruct Ha as [->|Ha]; [apply H1; apply in_or_app; right; exact Hb|apply IHl; assumption]. }
    assert (Kr : NoDup (flat_map part_keys ps)).
    { revert Hk. clear. induction (part_keys p) as [|a l IHl]; intros Hk; [exact Hk|]. inversion Hk; subst. apply IHl. assumption. }
    destruct (part_restored os alnum p src own uuid fname h name comment tree tree' (He p (or_introl eq_refl)) (fun n => Ho p n (or_introl eq_refl)) Oj Oi
      (fun k Hi => Hkk k (in_or_app _ _ k (or_introl Hi))) Hn Hc Ht (fun at_ E => Hat at_ (or_introl E))) as (own1 & h1 & D & D1 & D2 & B).
    assert (Hg1 : hgood h1) by (eapply part_good; [apply He; left; reflexivity|exact Ht|intros at_ E; apply Hat; left; exact E|exact D|exact Hg|exact Sp]).
    assert (Fix : forall k, k = s_name \/ k = s_comment \/ k = s_header -> dget k h1 = dget k h).
    { intros k Hx. apply D2. intros Hi. destruct (key_fixed _ _ Hi) as (_ & X1 & _ & X2 & X3 & _). destruct Hx as [->|[->| ->]]; congruence. }
    destruct (IH own1 h1) as (own' & h' & E & E1 & E2 & Hg2 & BB).
    + intros q Hq. apply He. right. exact Hq.
    + exact Hs2.
    + exact Kr.
    + exact Hn2.
    + intros q n Hq Hown. rewrite D1; [apply (Ho q n (or_intror Hq) Hown)|]. intros Hp. exact (Hs1 q Hq n Hp Hown).
    + intros q Hq. apply Hj. right. exact Hq.
    + rewrite D1; [exact Oj|]. apply (Hj p (or_introl eq_refl)).
    + rewrite D1; [exact Oi|]. apply (Hj p (or_introl eq_refl)).
    + intros k Hi. rewrite D2; [apply Hkk; apply in_or_app; right; exact Hi|]. intros Hp. exact (Kd k Hp Hi).
    + rewrite Fix by tauto. exact Hn.
    + rewrite Fix by tauto. exact Hc.
    + rewrite Fix by tauto. exact Ht.
    + intros at_ Hi. apply Hat. right. exact Hi.
    + exact Hg1.
    + exact Sr.
    + exists own', h'. cbn [parts_out]. rewrite D. cbn [bind]. split; [exact E|]. split; [|split; [|split; [exact Hg2|]]].
      * intros n Hno. rewrite E1 by (intros q Hq; apply Hno; right; exact Hq). apply D1. apply Hno. left. reflexivity.
      * intros k Hno. cbn [flat_map] in Hno. rewrite E2 by (intros Hi; apply Hno; apply in_or_app; right; exact Hi). apply D2. intros Hi. apply Hno. apply in_or_app. left. exact Hi.
      * intros srcs out h2 files Hsrc Hh2 Hn2' Hc2 Hout.
        destruct (B srcs out h2 files) as (out1 & h3 & F & F1 & F2 & F3).
        { intros n Hown. rewrite (Hsrc p n (or_introl eq_refl) Hown). apply E1. intros q Hq Hq2. exact (Hs1 q Hq n Hown Hq2). }
        { intros k Hi. rewrite Hh2 by (cbn [flat_map]; apply in_or_app; left; exact Hi). apply E2. exact (Kd k Hi). }
        { exact Hn2'. } { exact Hc2. } { apply Hout. left. reflexivity. }
        assert (Neq : forall q, In q ps -> dotted uuid (part_num q) <> dotted uuid (part_num p)).
        { intros q Hq Ex. apply dotted_inj in Ex. apply Hn1. rewrite <- Ex. apply in_map. exact Hq. }
        destruct (BB srcs out1 h3 (files ++ here uuid src [part_num p])) as (out2 & h4 & G & G1 & G2 & G3).
        { intros q n Hq Hown. apply (Hsrc q n (or_intror Hq) Hown). }
        { intros k Hi. rewrite F3; [apply Hh2; cbn [flat_map]; apply in_or_app; right; exact Hi|]. intros Hp. exact (Kd k Hp Hi). }
        { rewrite F3; [exact Hn2'|]. intros Hi. destruct (key_fixed _ _ Hi) as (_ & X1 & _). congruence. }
        { rewrite F3; [exact Hc2|]. intros Hi. destruct (key_fixed _ _ Hi) as (_ & _ & _ & X1 & _). congruence. }
        { intros q Hq. rewrite F2 by (apply Neq; exact Hq). apply Hout. right. exact Hq. }
        exists out2, h4. cbn [parts_back]. rewrite F. cbn [bind]. rewrite G. split; [|split; [|split]].
        -- cbn [map]. change (here uuid src (part_num p :: map part_num ps)) with (here uuid src ([part_num p] ++ map part_num ps)). rewrite here_app, app_assoc. reflexivity.
        -- intros q [<-|Hq]; [|apply G1; exact Hq]. rewrite G2; [exact F1|]. intros q Hq Ex. exact (Neq q Hq (eq_sym Ex)).
        -- intros n Hno. rewrite G2 by (intros q Hq; apply Hno; right; exact Hq). apply F2. apply Hno. left. reflexivity.
        -- intros k Hno. cbn [flat_map] in Hno. rewrite G3 by (intros Hi; apply Hno; apply in_or_app; right; exact Hi). apply F3. intros Hi. apply Hno. apply in_or_app. left. exact Hi.
Qed.
End P.

(** ** modules *)
Definition msource (fname : list N) (ext : list (list N * list N)) (n : list N) : Prop := exists m x, In m (map fst ext) /\ n = source_name fname m x.
Lemma modules_steps os dirs uuid fname ext (src : folder) (h0 : header) :
  NoDup (map fst ext) -> NoDup (map snd ext) -> (forall n s, In (n, s) ext -> module_entry os dirs (dget (dotted uuid s) src)) ->
  (forall n, In n (map fst ext) -> dget (k_info n) h0 = None) ->
  exists h codes, decode_code uuid src ext dirs h0 [] = Ok (h, codes) /\
    (forall k, (forall n, In n (map fst ext) -> k <> k_info n /\ k <> k_enc n) -> dget k h = dget k h0) /\
    forall (hw : header) (dest0 : folder), (forall n, In n (map fst ext) -> dget (k_info n) hw = dget (k_info n) h /\ dget (k_enc n) hw = dget (k_enc n) h) ->
      (forall n x, In n (map fst ext) -> nodot x -> dget (source_name fname n x) dest0 = None) ->
    exists own', write_decode_code os hw codes fname dest0 = Ok own' /\ (forall x, (forall n e, In n (map fst ext) -> nodot e -> x <> source_name fname n e) -> dget x own' = dget x dest0) /\
    forall (srcs : folder) (h2 : header), (forall n, msource fname ext n -> dget n srcs = dget n own') ->
      (forall n, In n (map fst ext) -> dget (k_info n) h2 = dget (k_info n) h /\ dget (k_enc n) h2 = dget (k_enc n) h) ->
    exists codes2, encode_code srcs fname ext h2 [] = Ok codes2 /\
    forall (h3 : header) (out : folder) files, (forall n, In n (map fst ext) -> dget (k_info n) h3 = dget (k_info n) h /\ dget (k_enc n) h3 = dget (k_enc n) h) ->
      (forall s, In s (map snd ext) -> dget (dotted uuid s) out = None) ->
    exists out', write_encode_code os uuid h3 codes2 ext dirs out files = Ok (out', files ++ here uuid src (map snd ext)) /\
      (forall n s, In (n, s) ext -> same_entry (dget (dotted uuid s) src) (dget (dotted uuid s) out')) /\
      (forall x, ~ In x (here uuid src (map snd ext)) -> dget x out' = dget x out).
Proof.
  intros N1 N2 Hm H0. destruct (present_exists os dirs uuid src ext Hm) as [its P].
  pose proof (present_ok _ _ _ _ _ _ P) as Hok. pose proof (present_nodup _ _ _ _ _ _ P N1) as Nn. pose proof (present_nodup2 _ _ _ _ _ _ P N2) as Ns.
  set (h := fold_left hdr_step its h0). pose proof (hdr_all its Nn h0) as Hh. fold h in Hh.
  assert (Hmid : Forall (mid os) its) by (eapply Forall_impl; [|exact Hok]; intros it (_ & _ & M & _); exact M).
  assert (Pn : forall it, In it its -> In (i_name it) (map fst ext)) by (intros it Hi; apply (present_name _ _ _ _ _ _ P); apply in_map; exact Hi).
  assert (Hag : forall h2 : header, (forall n, In n (map fst ext) -> dget (k_info n) h2 = dget (k_info n) h /\ dget (k_enc n) h2 = dget (k_enc n) h) -> forall it, In it its -> hdr_of it h2).
  { intros h2 Heq it Hi. destruct (Heq (i_name it) (Pn it Hi)) as [A B]. destruct (Hh it Hi) as [C D]. split; congruence. }
  assert (Lst : map (fun it => dotted uuid (i_suffix it)) its = here uuid src (map snd ext)).
  { rewrite (present_listed _ _ _ _ _ _ P). unfold listed, here. clear. induction ext as [|[a b] l IH]; [reflexivity|]. cbn [flat_map map snd]. rewrite IH. reflexivity. }
  exists h, (codes1 its). split; [apply (decode_all _ _ _ _ _ _ P N1 h0 []); reflexivity|]. split.
  { intros k Hk. apply hdr_step_other. intros it Hi. apply Hk. apply Pn. exact Hi. }
  intros hw dest0 Hw D0. destruct (write_all os fname its hw Hmid Nn (Hag hw Hw) dest0) as (own' & W & St & Fr).
  { intros it Hi. apply D0; [apply Pn; exact Hi|apply nodot_src]. }
  exists own'. split; [exact W|]. split.
  { intros x Hx. apply Fr. intros it Hi. apply Hx; [apply Pn; exact Hi|apply nodot_src]. }
  intros srcs h2 Hsrc Heq. exists (codes2 its).
  assert (St2 : forall it, In it its -> stored fname it srcs).
  { intros it Hi. specialize (St it Hi). unfold stored in *. rewrite Hsrc by (exists (i_name it), (src_ext it); split; [apply Pn; exact Hi|reflexivity]). exact St. }
  split.
  { apply (read_all _ _ _ _ _ _ _ srcs h2 P N1); [intros it Hi; split; [apply Hag; [exact Heq|exact Hi]|apply St2; exact Hi]| |reflexivity].
    intros n s Hi Hg. destruct (Heq n) as [A _]; [apply (in_map fst) in Hi; exact Hi|]. rewrite A. unfold h. rewrite hdr_step_other; [apply H0; apply (in_map fst) in Hi; exact Hi|].
    intros it Hit. split; [|intros E; apply k_info_enc in E; exact E]. intros E. apply k_info_inj in E.
    pose proof (present_in _ _ _ _ _ _ P it Hit) as Hj. rewrite <- E in Hj.
    assert (Es : i_suffix it = s). { apply (dget_nodup n _ ext) in Hj; [|exact N1]. apply (dget_nodup n _ ext) in Hi; [|exact N1]. congruence. }
    rewrite Forall_forall in Hok. destruct (Hok it Hit) as (_ & _ & _ & Sm & _). rewrite Es, Hg in Sm. exact Sm. }
  intros h3 out files Heq3 B0.
  destruct (build_all os dirs uuid src its h3 ext Hok Ns) with (dest := out) (files := files) as (out' & Wo & G & Oth).
  { intros it Hi. split; [apply Hag; [exact Heq3|exact Hi]|]. apply dget_nodup; [exact N1|]. apply (present_in _ _ _ _ _ _ P). exact Hi. }
  { intros it Hi. apply B0. apply (present_suffix _ _ _ _ _ _ P). apply in_map. exact Hi. }
  exists out'. rewrite Lst in Wo. split; [exact Wo|]. split.
  - intros n s Hi. destruct (dget (dotted uuid s) src) as [tr|] eqn:Eg.
    + destruct (present_all _ _ _ _ _ _ P n s Hi) as (it & Hit & Es & En); [congruence|]. rewrite <- Es, (G it Hit). rewrite Forall_forall in Hok.
      destruct (Hok it Hit) as (_ & _ & _ & Sm & _). rewrite Es, Eg in Sm. exact Sm.
    + rewrite Oth; [rewrite (B0 s) by (apply (in_map snd) in Hi; exact Hi); exact I|]. intros it Hit E. apply dotted_inj in E. subst s.
      rewrite Forall_forall in Hok. destruct (Hok it Hit) as (_ & _ & _ & Sm & _). rewrite Eg in Sm. exact Sm.
  - intros x Hx. apply Oth. intros it Hit E. apply Hx. rewrite <- Lst, E. apply (in_map (fun it => dotted uuid (i_suffix it))). exact Hit.
Qed.

(** ** further identifiers *)
Definition ctx (a : val) (r t : list val) (vs : list val) : val := VList (VList (a :: VList vs :: r) :: t).
Lemma vat_ctx a r t vs i : vat [0%nat; 1%nat; i] (ctx a r t vs) = match nth_error vs i with Some x => Ok x | None => Err IndexError end.
Proof. unfold ctx. cbn [vat vget nth_error bind]. destruct (nth_error vs i); reflexivity. Qed.
Lemma vput_ctx a r t vs i x y : nth_error vs i = Some y -> vput [0%nat; 1%nat; i] x (ctx a r t vs) = Ok (ctx a r t (set_nth i x vs)).
Proof. intros H. unfold ctx. cbn [vput vget nth_error bind]. rewrite H. cbn [bind Payload.vset]. rewrite H. reflexivity. Qed.
Lemma take_ids_ok a r t : forall l vs, NoDup (map (fun e => snd e) l) -> (forall e, In e l -> (snd e < length vs)%nat) ->
  exists ids ws, take_ids l (ctx a r t vs) = Ok (ids, ctx a r t ws) /\ length ws = length vs /\ (forall j, ~ In j (map (fun e => snd e) l) -> nth_error ws j = nth_error vs j) /\
    map fst ids = map (fun e : list N * list N * nat => fst (fst e)) l /\ (forall k m i, In (k, m, i) l -> exists x, nth_error vs i = Some x /\ In (k, x) ids) /\
    (Forall scal vs -> Forall (fun e => Forall scalar (snd (fst e))) l -> Forall scal ws /\ Forall (fun e => scal (snd e)) ids).
Proof.
  induction l as [|[[k m] i] l IH]; intros vs Hn Hl.
  - exists [], vs. split; [reflexivity|]. split; [reflexivity|]. split; [reflexivity|]. split; [reflexivity|]. split; [intros ? ? ? []|]. intros S _. split; [exact S|constructor].
  - cbn [map snd] in Hn. inversion Hn as [|? ? Hni Hn2]; subst. pose proof (Hl _ (or_introl eq_refl)) as Hi. cbn [snd] in Hi. destruct (nth_error vs i) as [x|] eqn:E; [|apply nth_error_None in E; lia].
    destruct (IH (set_nth i (VStr m) vs) Hn2) as (ids & ws & T & L & Ag & K & F & Sc); [intros e He; rewrite set_nth_len; apply Hl; right; exact He|].
    exists ((k, x) :: ids), ws. cbn [take_ids]. rewrite vat_ctx, E. cbn [bind]. rewrite (vput_ctx _ _ _ _ _ _ _ E). cbn [bind]. rewrite T. cbn [bind]. split; [reflexivity|].
    split; [rewrite L; apply set_nth_len|]. split.
    { intros j Hj. cbn [map snd] in Hj. rewrite Ag by (intros Hx; apply Hj; right; exact Hx). apply set_nth_other. intros ->. apply Hj. left. reflexivity. }
    split; [cbn [map fst]; rewrite K; reflexivity|]. split.
    { intros k2 m2 i2 [Hx|Hx]; [injection Hx as -> -> ->; exists x; split; [exact E|left; reflexivity]|]. destruct (F k2 m2 i2 Hx) as (z & Z1 & Z2). exists z. split; [|right; exact Z2].
      rewrite set_nth_other in Z1; [exact Z1|]. intros ->. apply Hni. apply (in_map (fun e => snd e) l (k2, m2, i2)). exact Hx. }
    intros S M. inversion M as [|? ? M1 M2]; subst. cbn [fst snd] in M1. destruct Sc as [S1 S2]; [|exact M2|].
    { apply Forall_forall. intros y Hy. apply set_nth_in in Hy. destruct Hy as [->|Hy]; [apply (proj1 (scal_str _)); exact M1|]. rewrite Forall_forall in S. apply S. exact Hy. }
    split; [exact S1|]. constructor; [|exact S2]. cbn [snd]. rewrite Forall_forall in S. apply S. eapply nth_error_In, E.
Qed.
Lemma nth_eq {A} (a b : list A) : (forall j, nth_error a j = nth_error b j) -> a = b.
Proof.
  revert b. induction a as [|x a IH]; intros [|y b] H; [reflexivity|specialize (H O); discriminate|specialize (H O); discriminate|]. f_equal; [specialize (H O); injection H as ->; reflexivity|].
  apply IH. intros j. exact (H (S j)).
Qed.
Lemma put_ids_ok a r t vs (d : header) : forall l ws, length ws = length vs -> (forall j, ~ In j (map (fun e => snd e) l) -> nth_error ws j = nth_error vs j) ->
  (forall k m i, In (k, m, i) l -> exists x, nth_error vs i = Some x /\ dget k d = Some x) -> put_ids l d (ctx a r t ws) = Ok (ctx a r t vs).
Proof.
  induction l as [|[[k m] i] l IH]; intros ws L Ag F.
  - cbn [put_ids]. f_equal. f_equal. apply nth_eq. intros j. apply Ag. intros [].
  - cbn [put_ids]. destruct (F k m i (or_introl eq_refl)) as (x & Ex & Ek). unfold field. rewrite Ek. cbn [bind].
    assert (Hw : exists y, nth_error ws i = Some y). { destruct (nth_error ws i) eqn:Ew; [eauto|]. apply nth_error_None in Ew. assert (nth_error vs i <> None) as Hx by congruence. apply nth_error_Some in Hx. lia. }
    destruct Hw as (y & Hw). rewrite (vput_ctx _ _ _ _ _ _ _ Hw). cbn [bind]. apply IH.
    + rewrite set_nth_len. exact L.
    + intros j Hj. destruct (Nat.eq_dec i j) as [<-|Hne]; [rewrite (set_nth_same _ _ _ _ Hw); symmetry; exact Ex|]. rewrite set_nth_other by exact Hne. apply Ag. intros [Hx|Hx]; [cbn in Hx; congruence|exact (Hj Hx)].
    + intros k2 m2 i2 Hx. apply (F k2 m2 i2). right. exact Hx.
Qed.

(** ** the header list *)
Lemma header_shape valid prefix h0 a b uuid r1 name locs more comment tl : valid uuid = true -> NoDup (map fst locs) ->
  decode_header valid prefix (h0 :: VList (a :: b :: VStr uuid :: r1) :: quoted (prefix ++ name) :: locale_list locs more :: quoted comment :: tl) true
  = Ok (mkhobj uuid name locs comment, h0 :: VList (a :: b :: VStr in_separate_file :: r1) :: quoted name :: locale_list locs more :: quoted comment :: tl).
Proof.
  intros Hv Hn.
  assert (E : List.concat (List.map (fun kv => [quoted (fst kv); quoted (snd kv)]) locs) = loc_pairs locs).
  { clear. induction locs as [|[k v] l IH]; [reflexivity|]. cbn [map concat app loc_pairs fst snd]. rewrite IH. reflexivity. }
  unfold locale_list. rewrite E. unfold decode_header, quoted. cbn [vnth nth_error bind vlist vstr].
  rewrite Hv. cbn [negb]. change (34%N :: (prefix ++ name) ++ [34%N]) with (str_encode (prefix ++ name)). rewrite str_decode_encode.
  pose proof (@read_name2_ok (VStr (str_of_int (Z.of_nat (length locs)))) more locs [] Hn) as R. cbn [app length] in R.
  assert (Sp : starts prefix (prefix ++ name) = true) by (apply starts_spec; eauto).
  rewrite Sp. destruct prefix as [|c p].
  - cbn [length Nat.eqb negb andb bind app vnth nth_error vlist vstr]. rewrite int_of_str_of_int. cbn [bind]. unfold zlen. rewrite Nat2Z.id, R. cbn [bind].
    change (34%N :: comment ++ [34%N]) with (str_encode comment). rewrite str_decode_encode. reflexivity.
  - change (negb (length (c :: p) =? 0)%nat && true) with true. cbv iota. cbn [Header.vset bind]. rewrite Props_Misc.skipn_prefix. cbn [bind vnth nth_error vlist vstr]. rewrite int_of_str_of_int. cbn [bind]. unfold zlen. rewrite Nat2Z.id, R. cbn [bind].
    change (34%N :: comment ++ [34%N]) with (str_encode comment). rewrite str_decode_encode. reflexivity.
Qed.
