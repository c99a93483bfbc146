(** C49, C50: the stage between container files and JSON files; the two code pages of brace files. *)
From Coq Require Import String Permutation.
From Verif Require Import PyBase PyText Utf Cp1251 JsonText JsonTextProofs Brace Spec_Brace BraceProofs BraceSim BraceMain BraceFile BraceMore Pipeline JsonStage Spec_Stage JsonStageProofs JsonStageBack JsonStageMain Props_Brace.
Open Scope list_scope.
Open Scope N_scope.

Definition any_order {T} (sched : list T -> list T) : Prop := forall l, Permutation (sched l) l.
Definition same_folder (t1 t2 : list (list N * tree)) : Prop := forall p, at_path (TDir t1) p = at_path (TDir t2) p.

(** ** C49: a folder turned into JSON files and back *)
Lemma every_file_impl (P Q : list N -> Prop) t : (forall b, P b -> Q b) -> every_file P t -> every_file Q t.
Proof.
  intros H. induction t as [b|ents IH] using tree_ind2; intros Ht; inversion Ht as [|? Hall]; subst; constructor; [auto|]. clear Ht. induction Hall as [|e l He Hall IHl]; [constructor|]. inversion IH; subst. constructor; auto.
Qed.

Theorem C49_stage_roundtrip : forall os recode src,
  every_folder distinct_names (TDir src) -> every_folder no_clash (TDir src) -> every_file (restorable os) (TDir src) ->
  exists mid, every_folder distinct_names (TDir mid) /\
    (forall sched, any_order sched -> exists fs, json_decode os sched src = Ok fs /\ contains fs (TDir mid)) /\
    (forall sched t, any_order sched -> same_folder t mid -> every_folder distinct_names (TDir t) ->
       exists out, json_encode os recode sched t = Ok out /\ contains out (TDir src)).
Proof.
  intros os recode src Hn Hc Hr. assert (Hb : every_file (back os) (TDir src)) by (eapply every_file_impl; [|exact Hr]; apply restorable_back).
  exists (cents os src). split; [|split].
  - apply cents_distinct; assumption.
  - intros sched Hs. apply stage_decode; assumption.
  - intros sched t Hs Ht Hd. apply (stage_encode os recode src Hn Hc Hb sched t Hs Ht Hd).
Qed.
Print Assumptions C49_stage_roundtrip.

(** what the folder of JSON files holds for one file *)
Lemma stage_find os src sched fs d n bs : every_folder distinct_names (TDir src) -> every_folder no_clash (TDir src) -> every_file (back os) (TDir src) ->
  any_order sched -> json_decode os sched src = Ok fs -> at_path (TDir src) (d ++ [n]) = Some (EFile bs) -> fs (d ++ [n ++ cext bs]) = Some (EFile (cdata os bs)).
Proof.
  intros Hn Hc Hb Hs Hd Ha. destruct (stage_decode os src Hn Hc Hb sched Hs) as (mid & Hm & Hcont). rewrite Hm in Hd. injection Hd as ->. rewrite (Hcont (d ++ [n ++ cext bs])).
  pose proof (ctree_entries os (TDir src) []) as He. change (ctree os (TDir src)) with (TDir (cents os src)) in He.
  apply (entries_at _ [] (cents_distinct os src Hn Hc Hb)). cbn [app]. rewrite He. change (d, n ++ cext bs, EFile (cdata os bs)) with (conv os (d, n, EFile bs)). apply in_map. apply (entries_at _ [] Hn d n). exact Ha.
Qed.
(** a brace file becomes a .json file that holds its tree; everything else is kept as it is *)
Theorem C49_stage_files : forall os src sched fs d n bs,
  every_folder distinct_names (TDir src) -> every_folder no_clash (TDir src) -> every_file (restorable os) (TDir src) ->
  any_order sched -> json_decode os sched src = Ok fs -> at_path (TDir src) (d ++ [n]) = Some (EFile bs) ->
  (forall data, canonical data -> Forall scalar (concat (flat_map leaves data)) -> brace_file_write os data [] = (Ok tt, bs) -> ~ json_text bs ->
     exists j txt, fs (d ++ [n ++ ext_json]) = Some (EFile j) /\ utf8_decode j = Ok txt /\ jload (univ_nl txt) = Some (jv (VList data))) /\
  (~ opens bs \/ json_text bs -> fs (d ++ [n ++ ext_bin]) = Some (EFile bs)) /\
  (opens bs -> ~ json_text bs -> big_text bs -> fs (d ++ [n ++ ext_c1b64]) = Some (EFile bs)).
Proof.
  intros os src sched fs d n bs Hn Hc Hr Hs Hd Ha. assert (Hb : every_file (back os) (TDir src)) by (eapply every_file_impl; [|exact Hr]; apply restorable_back).
  pose proof (stage_find os src sched fs d n bs Hn Hc Hb Hs Hd Ha) as Hf. unfold cext, cdata in Hf. split; [|split].
  - intros data Hcan Hsc Hw Hnj. destruct (text_roundtrip os Hcan) as (raw & Hr1 & Hr2). unfold brace_file_write in Hw. rewrite Hr1 in Hw. destruct (utf8sig_encode (write_nl os raw)) as [b|] eqn:Eb; [|discriminate]. injection Hw as ->.
    assert (Hraw : raw = roots_text CRLF data) by (destruct Hcan as (_ & H & _); unfold encode_root_object in Hr1; rewrite encode_roots in Hr1 by exact H; congruence).
    assert (Hsc2 : Forall scalar raw).
    { rewrite Forall_forall in *. intros c Hin. subst raw. apply in_roots_text in Hin; [|apply Hcan]. destruct Hin as [Hm|Hin]; [apply mark_scalar; exact Hm|auto]. }
    destruct (utf8sig_roundtrip _ (scalar_write_nl os Hsc2)) as (b2 & H1 & H2). rewrite Eb in H1. injection H1 as <-. change (utf8sig_decode bs) with (utf8_decode (strip_bom bs)) in H2.
    assert (Hop : exists t, univ_nl (write_nl os raw) = OPEN :: t).
    { rewrite Hraw. change (univ_nl (write_nl os (roots_text CRLF data))) with (readback os (roots_text CRLF data)). destruct Hcan as (Hne & Hro & _). rewrite readback_roots by exact Hro. destruct data as [|v data]; [congruence|]. unfold roots_text. rewrite join_flat. eexists. reflexivity. }
    destruct Hop as [t Ht]. assert (Hj : jload (univ_nl (write_nl os raw)) = None).
    { destruct (jload (univ_nl (write_nl os raw))) eqn:Ej; [|reflexivity]. exfalso. apply Hnj. exists (write_nl os raw). split; [exact H2|congruence]. }
    rewrite (kind_brace _ _ _ H2 Ht Hj), Hr2 in Hf. assert (Hv : scal (VList data)) by exact Hsc. destruct (utf8_roundtrip _ (scalar_write_nl os (dump_scalar (VList data) 0 Hv))) as (j & J1 & J2).
    unfold json_file in Hf. rewrite J1 in Hf. exists j, (write_nl os (jdump 0 (VList data))). split; [exact Hf|]. split; [exact J2|]. rewrite write_nl_nocr by apply dump_nocr. apply jload_jdump. exact Hv.
  - intros [H|H]; [rewrite bytes_not_open in Hf by exact H|rewrite bytes_json in Hf by exact H]; exact Hf.
  - intros Ho Hj (txt & Hd1 & Hb1). destruct (opens_text _ _ Ho Hd1) as [t Ht]. assert (Hj2 : jload (univ_nl txt) = None).
    { destruct (jload (univ_nl txt)) eqn:Ej; [|reflexivity]. exfalso. apply Hj. exists txt. split; [exact Hd1|congruence]. }
    rewrite (kind_brace _ _ _ Hd1 Ht Hj2), Hb1 in Hf. exact Hf.
Qed.
Print Assumptions C49_stage_files.

(** one file that starts with a brace and is neither JSON nor brace text stops the whole stage *)
Lemma run_fails {T} (f : T -> fsys -> res fsys) ts t : In t ts -> (forall fs, exists e, f t fs = Err e) -> forall fs, exists e, run_tasks f ts fs = Err e.
Proof.
  intros Hin Hf. induction ts as [|a ts IH]; [contradiction|]. intros fs. cbn [run_tasks]. destruct Hin as [->|Hin]; [destruct (Hf fs) as [e ->]; eexists; reflexivity|]. destruct (f a fs) as [fs'|e]; cbn [bind]; [apply IH; exact Hin|eauto].
Qed.
Theorem C49_broken_file_stops : forall os sched src d n bs txt e,
  every_folder distinct_names (TDir src) -> any_order sched -> at_path (TDir src) (d ++ [n]) = Some (EFile bs) ->
  opens bs -> ~ json_text bs -> utf8_decode (strip_bom bs) = Ok txt -> decode_file (univ_nl txt) = Err e -> e <> BigBase64 ->
  exists x, json_decode os sched src = Err x.
Proof.
  intros os sched src d n bs txt e Hn Hs Ha Ho Hj Hd He Hb. unfold json_decode. rewrite decode_walk_eq. apply (run_fails _ _ (d, n, bs)).
  - eapply Permutation_in; [symmetry; apply Hs|]. apply tasks_in. cbn [fst snd]. apply (entries_at _ [] Hn d n). exact Ha.
  - intros fs. destruct (opens_text _ _ Ho Hd) as [t Ht]. assert (Hj2 : jload (univ_nl txt) = None).
    { destruct (jload (univ_nl txt)) eqn:Ej; [|reflexivity]. exfalso. apply Hj. exists txt. split; [exact Hd|congruence]. }
    unfold decode_task. rewrite (kind_brace _ _ _ Hd Ht Hj2), He. destruct e; try congruence; eexists; reflexivity.
Qed.
Print Assumptions C49_broken_file_stops.

(** the .txt files that the program could write are never written *)
Theorem C49_no_txt : forall bs, decode_kind bs <> Ok KEmpty.
Proof. exact no_empty. Qed.
Print Assumptions C49_no_txt.

(** *** examples *)
Definition ex_data : list val := [VList [VStr [49]; VStr [QUOTE; 97; 1103; QUOTE]; VList [VStr [50]]]].
Definition ex_brace : list N := Eval vm_compute in snd (brace_file_write Posix ex_data []).
Definition ex_json_text : list N := Eval vm_compute in u "{""a"": [1, true]}"%string.
Definition ex_src : list (list N * tree) :=
  [([114], TFile ex_brace); ([120], TDir [([105], TFile [137; 80; 78; 71]); ([106], TFile ex_json_text)])].
Example ex_data_canonical : canonical ex_data.
Proof.
  split; [discriminate|]. split; [|cbn; reflexivity]. constructor; [|constructor]. eexists. split; [reflexivity|]. apply o_list; [discriminate|reflexivity|].
  apply e_leaf; [leaf_solve; plain_solve|]. apply e_leaf; [leaf_solve|].
  - right. exists [97; 1103]. split; [reflexivity|]. split; [dsolve|in_solve].
  - apply e_obj; [|apply e_nil]. apply o_list; [discriminate|reflexivity|]. apply e_leaf; [leaf_solve; plain_solve|apply e_nil].
Qed.
Example ex_data_scalar : Forall scalar (concat (flat_map leaves ex_data)).
Proof. repeat constructor. Qed.
Example ex_hyps : every_folder distinct_names (TDir ex_src) /\ every_folder no_clash (TDir ex_src) /\ every_file (restorable Posix) (TDir ex_src).
Proof.
  split; [|split].
  - unfold ex_src. constructor; [unfold distinct_names; cbn [map fst]; constructor; [intros [H|[]]; discriminate|constructor; [intros []|constructor]]|].
    constructor; [constructor|]. constructor; [|constructor]. cbn [snd]. constructor; [unfold distinct_names; cbn [map fst]; constructor; [intros [H|[]]; discriminate|constructor; [intros []|constructor]]|].
    constructor; [constructor|]. constructor; [constructor|constructor].
  - assert (Hd : forall c, c <> dot -> ~ Forall (fun x => x = dot) [c]) by (intros c Hc H; inversion H; congruence).
    assert (Hx : forall a c x, In x stage_exts -> [a] ++ x <> [c]) by (intros a c x Hx H; unfold stage_exts in Hx; cbn [In] in Hx; decompose [or] Hx; subst; try contradiction; discriminate).
    constructor.
    + intros n b Hin. cbn [ex_src In] in Hin. destruct Hin as [H|[H|[]]]; [|discriminate]. assert (n = [114]) as -> by congruence. split; [apply Hd; discriminate|]. intros x es Hs Hin. destruct Hin as [Hin|[Hin|[]]]; [discriminate|]. apply (Hx 114 120 x Hs). congruence.
    + constructor; [constructor|]. constructor; [|constructor]. constructor; [|constructor; [constructor|constructor; [constructor|constructor]]]. intros n b Hin. cbn [In] in Hin. destruct Hin as [H|[H|[]]].
      * assert (n = [105]) as -> by congruence. split; [apply Hd; discriminate|]. intros x es Hs [Hin|[Hin|[]]]; discriminate.
      * assert (n = [106]) as -> by congruence. split; [apply Hd; discriminate|]. intros x es Hs [Hin|[Hin|[]]]; discriminate.
  - constructor. constructor; [|constructor; [|constructor]]; cbn [snd].
    + constructor. right. right. left. exists ex_data. split; [exact ex_data_canonical|split; [exact ex_data_scalar|reflexivity]].
    + constructor. constructor; [|constructor; [|constructor]]; cbn [snd].
      * constructor. left. intros [r H]. discriminate.
      * constructor. right. left. eexists. split; [vm_compute; reflexivity|]. vm_compute. discriminate.
Qed.
(** [fs] at a few paths *)
Definition peek (r : res fsys) (p : path) : option entry := match r with Ok fs => fs p | Err _ => None end.
Definition inorder (l : list dtask) : list dtask := l.
Definition noread (b : list N) : res (list N) := Ok b.
Example ex_run : peek (json_decode Posix inorder ex_src) [[120]; [105] ++ ext_bin] = Some (EFile [137; 80; 78; 71]) /\
  peek (json_decode Posix inorder ex_src) [[120]; [106] ++ ext_bin] = Some (EFile ex_json_text) /\
  peek (json_decode Posix inorder ex_src) [[114] ++ ext_json] = match json_file Posix ex_data with Ok j => Some (EFile j) | Err _ => None end /\
  peek (json_encode Posix noread inorder (cents Posix ex_src)) [[114]] = Some (EFile ex_brace).
Proof. vm_compute. repeat split. Qed.
(** a file with a big payload is kept as .c1b64 *)
Definition ex_big : list N := Eval vm_compute in utf8_bom ++ u "{1,"%string ++ [LF] ++ u "{#base64:AAAA}"%string ++ [LF] ++ u "}"%string.
Example ex_big_text : opens ex_big /\ ~ json_text ex_big /\ big_text ex_big.
Proof.
  split; [eexists; reflexivity|]. split; [|eexists; split; vm_compute; reflexivity]. intros (txt & H1 & H2). apply H2. vm_compute in H1. injection H1 as <-. vm_compute. reflexivity.
Qed.
Example ex_broken : exists txt e, opens [OPEN; 97; 10; 98] /\ ~ json_text [OPEN; 97; 10; 98] /\ utf8_decode (strip_bom [OPEN; 97; 10; 98]) = Ok txt /\ decode_file (univ_nl txt) = Err e /\ e <> BigBase64.
Proof.
  exists [OPEN; 97; 10; 98], ExtExc. split; [eexists; reflexivity|]. split; [|repeat split; try reflexivity; discriminate]. intros (txt & H1 & H2). apply H2. vm_compute in H1. injection H1 as <-. vm_compute. reflexivity.
Qed.

Lemma no_entries d l : flat_map (fun e => entries_of d (fst e) (snd e)) l = [] -> l = [].
Proof. destruct l as [|[n [b|es]] l]; [reflexivity|discriminate|discriminate]. Qed.
(** a folder named like the converted form of a file beside it receives that file: the file comes
    back inside the folder and under another name *)
Theorem C49_clash_refuted :
  let src := [([120], TFile [1]); ([120] ++ ext_bin, TDir [])] in
  every_folder distinct_names (TDir src) /\ every_file (restorable Posix) (TDir src) /\
  peek (json_decode Posix inorder src) [[120] ++ ext_bin; [120]] = Some (EFile [1]) /\
  (forall t, contains (match json_decode Posix inorder src with Ok fs => fs | Err _ => empty_fs end) (TDir t) -> every_folder distinct_names (TDir t) ->
     exists e, json_encode Posix noread inorder t = Err e).
Proof.
  cbv zeta. split; [|split; [|split]].
  - constructor; [unfold distinct_names; cbn [map fst]; constructor; [intros [H|[]]; discriminate|constructor; [intros []|constructor]]|].
    constructor; [constructor|]. constructor; [|constructor]. constructor; [constructor|constructor].
  - constructor. constructor; [|constructor; [|constructor]]; cbn [snd]; constructor; [|constructor]. left. intros [r H]. discriminate.
  - vm_compute. reflexivity.
  - intros t Hc Hd. set (fs := match json_decode Posix inorder _ with Ok fs => fs | Err _ => empty_fs end) in Hc.
    assert (Hk : contains (apply [([], [120] ++ ext_bin, EDir); ([[120] ++ ext_bin], [120], EFile [1])] empty_fs) (TDir t)) by exact Hc.
    apply contains_perm in Hk; [|exact Hd|]. 2: { constructor; [intros [H|[]]; discriminate|constructor; [intros []|constructor]]. }
    destruct t as [|[n x] t]; [apply Permutation_length in Hk; discriminate|].
    rewrite entries_dir in Hk. cbn [flat_map fst snd] in Hk. pose proof (Permutation_length Hk) as Hl. rewrite app_length in Hl.
    destruct x as [b|es].
    { exfalso. assert (Hin : In ([], n, EFile b) [([], [120] ++ ext_bin, EDir); ([[120] ++ ext_bin], [120], EFile [1])]) by (eapply Permutation_in; [symmetry; exact Hk|left; reflexivity]). destruct Hin as [H|[H|[]]]; discriminate. }
    assert (Hin : In ([], n, EDir) [([], [120] ++ ext_bin, EDir); ([[120] ++ ext_bin], [120], EFile [1])]) by (eapply Permutation_in; [symmetry; exact Hk|left; reflexivity]). destruct Hin as [H|[H|[]]]; [|discriminate]. assert (n = [120] ++ ext_bin) as -> by congruence. clear H.
    change (entries_of [] ([120] ++ ext_bin) (TDir es)) with (([], [120] ++ ext_bin, EDir) :: entries [[120] ++ ext_bin] (TDir es)) in Hk. cbn [app] in Hk. apply Permutation_cons_inv in Hk. apply Permutation_length_1_inv in Hk.
    destruct es as [|[m y] es].
    { cbn [entries app] in Hk. assert (Hin : In ([[120] ++ ext_bin], [120], EFile [1]) (flat_map (fun e : list N * tree => entries_of [] (fst e) (snd e)) t)) by (rewrite Hk; left; reflexivity).
      apply in_flat_map in Hin. destruct Hin as ([n' y] & Hin1 & Hin2). cbn [fst snd] in Hin2.
      exfalso. inversion Hd as [|? Hd1 Hd2]; subst. unfold distinct_names in Hd1. cbn [map fst] in Hd1. inversion Hd1 as [|? ? Hni _]; subst. apply Hni. apply key_of in Hin2. destruct Hin2 as [q Hq]. unfold key in Hq. cbn in Hq. injection Hq as Hq _. change (fst (n', y)) with n'. cbn [app]. rewrite Hq. apply (in_map fst _ _ Hin1). }
    rewrite entries_dir in Hk. cbn [flat_map fst snd] in Hk. destruct y as [b|es'].
    + cbn [entries_of app] in Hk. injection Hk as -> -> Hr. apply app_eq_nil in Hr. destruct Hr as [H1 H2]. apply no_entries in H1, H2. subst es t. vm_compute. eexists. reflexivity.
    + exfalso. cbn [entries_of app] in Hk. discriminate.
Qed.
Print Assumptions C49_clash_refuted.
(** a brace file in windows-1251 comes back in UTF-8 *)
Definition ex_cp1251 : list N := [OPEN; 34; 255; 34; CLOSE].
Theorem C49_codepage_refuted :
  opens ex_cp1251 /\ ~ json_text ex_cp1251 /\ utf8_decode ex_cp1251 = Err UnicodeDecodeError /\
  exists j b, peek (json_decode Posix inorder [([120], TFile ex_cp1251)]) [[120] ++ ext_json] = Some (EFile j) /\
    peek (json_encode Posix noread inorder [([120] ++ ext_json, TFile j)]) [[120]] = Some (EFile b) /\ b <> ex_cp1251 /\
    brace_file_read cp1251_decode b = brace_file_read cp1251_decode ex_cp1251.
Proof.
  split; [eexists; reflexivity|]. split; [intros (txt & H & _); discriminate|]. split; [reflexivity|]. eexists. eexists. split; [vm_compute; reflexivity|]. split; [vm_compute; reflexivity|]. split; [discriminate|]. vm_compute. reflexivity.
Qed.
Print Assumptions C49_codepage_refuted.
(** a .txt file, which the other direction never writes, is built with a dot at the end of its name *)
Theorem C49_txt_name_refuted : forall recode n b, recode [1] = Ok b ->
  peek (json_encode Posix recode inorder [(n ++ ext_txt, TFile [1])]) [n ++ [dot]] = Some (EFile b).
Proof.
  intros recode n b Hb. unfold json_encode, inorder. cbn [encode_walk]. unfold encode_entry. change (n ++ ext_txt) with (n ++ dot :: x_txt). rewrite last_ext by (apply nodot_b; reflexivity). change (str_eqb x_txt x_txt) with true. cbn iota. rewrite Hb. cbn [bind].
  replace (firstn (length (n ++ dot :: x_txt) - 3) (n ++ dot :: x_txt)) with (n ++ [dot]).
  - cbn [app]. unfold write_file, empty_fs. cbn [bind run_tasks app]. cbn. unfold upd. rewrite path_eqb_refl. reflexivity.
  - rewrite app_length. cbn [length x_txt]. replace (length n + 4 - 3)%nat with (length n + 1)%nat by lia. rewrite firstn_app_2. reflexivity.
Qed.
Print Assumptions C49_txt_name_refuted.

(** ** C50: brace files in windows-1251 *)
Lemma utf8_stops : forall n x a b y, (length x <= n)%nat -> 192 <= a -> b < 128 -> exists e, utf8_decode (x ++ a :: b :: y) = Err e.
Proof.
  assert (Hno : forall a y b, 192 <= a -> b < 128 -> exists e, utf8_decode (a :: b :: y) = Err e).
  { intros a y b Ha Hb. cbn [utf8_decode]. replace (a <? 128) with false by lia. assert (Utf.cont b = false) as -> by (unfold Utf.cont; lia). 
    destruct ((194 <=? a) && (a <? 224)); [(eexists; reflexivity)|]. destruct ((224 <=? a) && (a <? 240)); [destruct y; [(eexists; reflexivity)|cbn [andb]; (eexists; reflexivity)]|]. destruct ((240 <=? a) && (a <? 245)); [destruct y as [|? [|? ?]]; (eexists; reflexivity)|(eexists; reflexivity)]. }
  assert (Hc : forall b, 192 <= b -> Utf.cont b = false) by (intros b Hb; unfold Utf.cont; lia). assert (Hc2 : forall b, b < 128 -> Utf.cont b = false) by (intros b Hb; unfold Utf.cont; lia).
  induction n as [|n IH]; intros x a b y Hl Ha Hb; [destruct x; [apply Hno; assumption|cbn in Hl; lia]|].
  destruct x as [|p x]; [apply Hno; assumption|]. cbn [length] in Hl. cbn [app utf8_decode].
  destruct (p <? 128). { destruct (IH x a b y ltac:(lia) Ha Hb) as [e ->]. eexists. reflexivity. }
  destruct ((194 <=? p) && (p <? 224)).
  { destruct x as [|q x]; cbn [app]; [rewrite Hc by exact Ha; (eexists; reflexivity)|]. destruct (Utf.cont q); [|(eexists; reflexivity)]. cbn [length] in Hl. destruct (IH x a b y ltac:(lia) Ha Hb) as [e ->]. eexists. reflexivity. }
  destruct ((224 <=? p) && (p <? 240)).
  { destruct x as [|q [|r x]]; cbn [app]; [rewrite (Hc a) by exact Ha; cbn [andb]; (eexists; reflexivity)|rewrite (Hc a) by exact Ha; rewrite andb_false_r; cbn [andb]; (eexists; reflexivity)|]. cbv zeta. match goal with |- context [if ?c then _ else _] => destruct c end; [|(eexists; reflexivity)]. cbn [length] in Hl. destruct (IH x a b y ltac:(lia) Ha Hb) as [e ->]. eexists. reflexivity. }
  destruct ((240 <=? p) && (p <? 245)); [|(eexists; reflexivity)].
  destruct x as [|q [|r [|s x]]]; cbn [app].
  - destruct y as [|y0 y]; [(eexists; reflexivity)|]. rewrite (Hc a) by exact Ha. cbn [andb]. (eexists; reflexivity).
  - rewrite (Hc a) by exact Ha. rewrite andb_false_r. cbn [andb]. (eexists; reflexivity).
  - rewrite (Hc a) by exact Ha. rewrite andb_false_r. cbn [andb]. (eexists; reflexivity).
  - cbv zeta. match goal with |- context [if ?c then _ else _] => destruct c end; [|(eexists; reflexivity)]. cbn [length] in Hl. destruct (IH x a b y ltac:(lia) Ha Hb) as [e ->]. eexists. reflexivity.
Qed.
(** a Russian letter А..я followed by an ASCII character, such as the closing quote of its string *)
Definition russian (c : N) : Prop := 1040 <= c <= 1103.
Lemma russian_byte b c : cp1251_char b = Some c -> russian c -> 192 <= b.
Proof.
  unfold cp1251_char, russian. intros H Hc. destruct (b <? 128) eqn:Eb; [injection H as ->; lia|]. destruct (nth_error cp1251_high (N.to_nat (b - 128))) as [x|] eqn:E; [|discriminate].
  destruct (N.ltb_spec b 192) as [Hb|Hb]; [|exact Hb]. exfalso.
  assert (Hf : forallb (fun c => negb ((1040 <=? c) && (c <=? 1103))) (firstn 64 cp1251_high) = true) by (vm_compute; reflexivity).
  assert (Hx : In x (firstn 64 cp1251_high)).
  { apply nth_error_In with (n := N.to_nat (b - 128)). rewrite <- E. rewrite <- (firstn_skipn 64 cp1251_high) at 2. symmetry. apply nth_error_app1. change (length (firstn 64 cp1251_high)) with 64%nat. lia. }
  rewrite forallb_forall in Hf. specialize (Hf _ Hx). destruct x as [|p]; [discriminate|]. injection H as <-. apply negb_true_iff in Hf. apply andb_false_iff in Hf. destruct Hf as [Hf|Hf]; lia.
Qed.
Lemma cp1251_app x y bs : cp1251_decode bs = Ok (x ++ y) -> exists p q, bs = p ++ q /\ cp1251_decode p = Ok x /\ cp1251_decode q = Ok y.
Proof.
  revert bs. induction x as [|c x IH]; intros bs H; [exists [], bs; auto|]. destruct bs as [|b bs]; [discriminate|]. cbn [cp1251_decode app] in H. destruct (cp1251_char b) as [d|] eqn:Ed; [|discriminate]. destruct (cp1251_decode bs) as [r|] eqn:Er; [|discriminate]. cbn [bind] in H. injection H as -> ->.
  destruct (IH bs Er) as (p & q & -> & Hp & Hq). exists (b :: p), q. split; [reflexivity|]. split; [|exact Hq]. cbn [cp1251_decode]. rewrite Ed, Hp. reflexivity.
Qed.
Lemma cp1251_cons c y bs : cp1251_decode bs = Ok (c :: y) -> exists b q, bs = b :: q /\ cp1251_char b = Some c /\ cp1251_decode q = Ok y.
Proof.
  destruct bs as [|b bs]; [discriminate|]. cbn [cp1251_decode]. destruct (cp1251_char b) as [d|] eqn:Ed; [|discriminate]. destruct (cp1251_decode bs) as [r|] eqn:Er; [|discriminate]. cbn [bind]. intros H. injection H as -> ->. exists b, bs. auto.
Qed.
Lemma write_nl_pair p pre c d post : c <> LF -> d < 128 -> exists d' pre' post', write_nl p (pre ++ c :: d :: post) = pre' ++ c :: d' :: post' /\ d' < 128.
Proof.
  intros Hc Hd. rewrite write_nl_app. rewrite !write_nl_cons. destruct (c =? LF) eqn:E; [lia|]. destruct (d =? LF) eqn:E2.
  - destruct p; cbn [linesep app]; do 3 eexists; (split; [reflexivity|reflexivity]).
  - cbn [app]. do 3 eexists. split; [reflexivity|exact Hd].
Qed.
Theorem C50_windows1251_read : forall p data raw pre c d post bs,
  canonical data -> encode_root_object data = Ok raw ->
  raw = pre ++ c :: d :: post -> russian c -> d < 128 ->
  cp1251_decode bs = Ok (write_nl p raw) ->
  brace_file_read cp1251_decode bs = Ok (DTree data).
Proof.
  intros p data raw pre c d post bs Hcan Hr Hraw Hc Hd Hbs. destruct (text_roundtrip p Hcan) as (raw' & Hr1 & Hr2). rewrite Hr in Hr1. injection Hr1 as <-.
  assert (Hbom : strip_bom bs = bs).
  { assert (Hraw2 : raw = roots_text CRLF data) by (destruct Hcan as (_ & H & _); unfold encode_root_object in Hr; rewrite encode_roots in Hr by exact H; congruence).
    destruct Hcan as (Hne & _ & _). destruct data as [|v data]; [congruence|]. unfold roots_text in Hraw2. rewrite join_flat in Hraw2. rewrite Hraw2 in Hbs. unfold enc_obj in Hbs. cbn [app] in Hbs. rewrite write_nl_cons in Hbs. change (OPEN =? LF) with false in Hbs. cbn iota in Hbs. cbn [app] in Hbs.
    apply cp1251_head in Hbs; [|reflexivity]. destruct Hbs as [r ->]. reflexivity. }
  unfold brace_file_read, utf8sig_decode. fold (strip_bom bs). rewrite Hbom.
  destruct (write_nl_pair p pre c d post) as (d' & pre' & post' & Hw & Hd'); [unfold russian, LF in *; lia|exact Hd|]. rewrite Hraw, Hw in Hbs. pose proof Hbs as Hbs0.
  apply cp1251_app in Hbs. destruct Hbs as (x & q & -> & _ & Hq). apply cp1251_cons in Hq. destruct Hq as (a & q1 & -> & Ha & Hq). apply cp1251_cons in Hq. destruct Hq as (b & q2 & -> & Hb & _).
  destruct (utf8_stops (length x) x a b q2 (le_n _)) as [e ->].
  - apply (russian_byte _ _ Ha Hc).
  - destruct (N.ltb_spec b 128) as [H|H]; [exact H|]. apply (cp1251_high_ge _ _ H) in Hb. lia.
  - rewrite Hbs0, <- Hw, <- Hraw, Hr2. reflexivity.
Qed.
Print Assumptions C50_windows1251_read.
Example C50_example : brace_file_read cp1251_decode [OPEN; 49; COMMA; 34; 97; 255; 34; COMMA; LF; OPEN; 50; CLOSE; LF; CLOSE] = Ok (DTree ex_data) /\
  exists pre post raw, encode_root_object ex_data = Ok raw /\ raw = pre ++ 1103 :: QUOTE :: post /\ cp1251_decode [OPEN; 49; COMMA; 34; 97; 255; 34; COMMA; LF; OPEN; 50; CLOSE; LF; CLOSE] = Ok (write_nl Posix raw).
Proof. split; [vm_compute; reflexivity|]. exists [OPEN; 49; COMMA; 34; 97]. eexists. eexists. split; [vm_compute; reflexivity|]. split; [reflexivity|vm_compute; reflexivity]. Qed.
(** windows-1251 bytes that happen to be valid UTF-8 are read as UTF-8 *)
Theorem C50_ambiguous_refuted : exists data bs raw, canonical data /\ encode_root_object data = Ok raw /\ cp1251_decode bs = Ok (write_nl Posix raw) /\
  exists other, other <> data /\ brace_file_read cp1251_decode bs = Ok (DTree other).
Proof.
  exists [VList [VStr [QUOTE; 1056; 176; QUOTE]]], [OPEN; QUOTE; 208; 176; QUOTE; CLOSE]. eexists. split; [|split; [vm_compute; reflexivity|split; [vm_compute; reflexivity|]]].
  - split; [discriminate|]. split; [|exact I || (cbn; intros H; discriminate H)]. constructor; [|constructor]. eexists. split; [reflexivity|]. apply o_list; [discriminate|reflexivity|]. apply e_leaf; [leaf_solve|apply e_nil]. right. exists [1056; 176]. split; [reflexivity|]. split; [dsolve|in_solve].
  - eexists. split; [|vm_compute; reflexivity]. discriminate.
Qed.
Print Assumptions C50_ambiguous_refuted.
