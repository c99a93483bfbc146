From Verif Require Import PyBase PyInt Brace Header.
Set Implicit Arguments.
Open Scope list_scope.
Open Scope Z_scope.

Lemma vset_ok i v l x : vnth i l = Ok x -> exists l', vset i v l = Ok l' /\ vnth i l' = Ok v /\ length l' = length l /\
  (forall j, j <> i -> vnth j l' = vnth j l) /\ (forall w, vset i w l' = vset i w l).
Proof.
  unfold vnth. revert i. induction l as [|y l IH]; intros [|i]; cbn [nth_error vset]; try discriminate.
  - intros _. exists (v :: l). repeat split. intros [|j] Hj; [congruence|reflexivity].
  - intros H. destruct (IH i H) as (l' & E & H1 & H2 & H3 & H4). rewrite E. cbn [bind]. exists (y :: l').
    split; [reflexivity|]. split; [exact H1|]. split; [cbn; congruence|]. split.
    + intros [|j] Hj; [reflexivity|]. cbn. apply H3. congruence.
    + intros w. cbn [vset]. rewrite H4. reflexivity.
Qed.
Lemma vset_same i v l : vnth i l = Ok v -> vset i v l = Ok l.
Proof.
  unfold vnth. revert i. induction l as [|y l IH]; intros [|i]; cbn [nth_error vset]; try discriminate.
  - intros H. injection H as ->. reflexivity.
  - intros H. rewrite (IH i H). reflexivity.
Qed.
Lemma str_decode_encode s : str_decode (str_encode s) = s.
Proof. unfold str_decode, str_encode. cbn [tl]. apply removelast_last. Qed.

(** what decode leaves in the header *)
Lemma decode_facts valid prefix hdr sep obj hdr' :
  decode_header valid prefix hdr sep = Ok (obj, hdr') ->
  exists l1 s2, vnth 1 hdr = Ok (VList l1) /\ vnth 2 l1 = Ok (VStr (h_uuid obj)) /\ vnth 2 hdr = Ok (VStr s2) /\
    length hdr' = length hdr /\
    (forall j, (3 <= j)%nat -> vnth j hdr' = vnth j hdr) /\ vnth 0 hdr' = vnth 0 hdr /\
    vnth 2 hdr' = (if negb (length prefix =? 0)%nat && starts prefix (str_decode s2) then Ok (VStr (str_encode (h_name obj))) else Ok (VStr s2)) /\
    h_name obj = (if negb (length prefix =? 0)%nat && starts prefix (str_decode s2) then skipn (length prefix) (str_decode s2) else str_decode s2) /\
    vnth 1 hdr' = Ok (VList (if sep then match vset 2 (VStr in_separate_file) l1 with Ok l => l | Err _ => l1 end else l1)).
Proof.
  unfold decode_header. intros H.
  destruct (vnth 1 hdr) as [h1|] eqn:E1; cbn [bind] in H; [|discriminate].
  destruct h1 as [| |l1]; cbn [vlist bind] in H; try discriminate.
  destruct (vnth 2 l1) as [uv|] eqn:E2; cbn [bind] in H; [|discriminate].
  destruct uv as [|uuid|]; cbn [vstr bind] in H; try discriminate.
  destruct (valid uuid); cbn [negb] in H; [|discriminate].
  destruct (vnth 2 hdr) as [h2|] eqn:E3; cbn [bind] in H; [|discriminate].
  destruct h2 as [|s2|]; cbn [vstr bind] in H; try discriminate.
  exists l1, s2.
  assert (Hmid : exists name hd, (if negb (length prefix =? 0)%nat && starts prefix (str_decode s2)
    then hd <- vset 2 (VStr (str_encode (skipn (length prefix) (str_decode s2)))) hdr ;; Ok (skipn (length prefix) (str_decode s2), hd)
    else Ok (str_decode s2, hdr)) = Ok (name, hd) /\
    length hd = length hdr /\ (forall j, j <> 2%nat -> vnth j hd = vnth j hdr) /\
    name = (if negb (length prefix =? 0)%nat && starts prefix (str_decode s2) then skipn (length prefix) (str_decode s2) else str_decode s2) /\
    vnth 2 hd = (if negb (length prefix =? 0)%nat && starts prefix (str_decode s2) then Ok (VStr (str_encode name)) else Ok (VStr s2))).
  { destruct (negb (length prefix =? 0)%nat && starts prefix (str_decode s2)).
    - destruct (vset_ok 2 (VStr (str_encode (skipn (length prefix) (str_decode s2)))) hdr E3) as (l' & A & B & C & D & _).
      rewrite A. cbn [bind]. do 2 eexists. split; [reflexivity|]. auto.
    - do 2 eexists. split; [reflexivity|]. auto. }
  destruct Hmid as (name & hd & Em & Hlen & Hoth & Hname & H2). cbv zeta in H. rewrite Em in H. cbn [bind] in H. clear Em.
  destruct (vnth 3 hd) as [h3|] eqn:E5; cbn [bind] in H; [|discriminate].
  destruct h3 as [| |l3]; cbn [vlist bind] in H; try discriminate.
  destruct (vnth 0 l3) as [cv|] eqn:E6; cbn [bind] in H; [|discriminate].
  destruct cv as [|cs|]; cbn [vstr bind] in H; try discriminate.
  destruct (int_of_str cs) as [count|] eqn:E7; cbn [bind] in H; [|discriminate].
  destruct (read_name2 l3 (Z.to_nat count) 0 []) as [n2|] eqn:E8; cbn [bind] in H; [|discriminate].
  destruct (vnth 4 hd) as [h4|] eqn:E9; cbn [bind] in H; [|discriminate].
  destruct h4 as [|s4|]; cbn [vstr bind] in H; try discriminate.
  pose proof (Hoth 1%nat ltac:(discriminate)) as E10. rewrite E1 in E10.
  destruct sep.
  - rewrite E10 in H. cbn [bind vlist] in H.
    destruct (vset_ok 2 (VStr in_separate_file) l1 E2) as (l1' & A & B & C & D & _). rewrite A in H. cbn [bind] in H.
    destruct (vset_ok 1 (VList l1') hd E10) as (hd' & A' & B' & C' & D' & _). rewrite A' in H. cbn [bind] in H.
    injection H as <- <-. cbn [h_uuid h_name]. split; [reflexivity|]. split; [exact E2|]. split; [reflexivity|].
    split; [congruence|]. split; [intros j Hj; rewrite D' by lia; apply Hoth; lia|].
    split; [rewrite D' by lia; apply Hoth; lia|]. split; [rewrite D' by lia; exact H2|]. split; [exact Hname|].
    rewrite A. exact B'.
  - cbn [bind] in H. injection H as <- <-. cbn [h_uuid h_name]. split; [reflexivity|]. split; [exact E2|]. split; [reflexivity|].
    split; [exact Hlen|]. split; [intros j Hj; apply Hoth; lia|]. split; [apply Hoth; lia|]. auto.
Qed.

Lemma vnth_ext l l' : length l = length l' -> (forall j, vnth j l = vnth j l') -> l = l'.
Proof.
  revert l'. induction l as [|x l IH]; intros [|y l'] Hl H; try discriminate; [reflexivity|].
  f_equal; [specialize (H O); cbn in H; congruence|]. apply IH; [cbn in Hl; congruence|]. intros j. apply (H (S j)).
Qed.

Definition owned (header : list val) : Prop := (length header < 6)%nat \/ vnth 5 header = Ok (VStr [48%N]).

(** encode after decode: only the name may differ *)
Lemma encode_decode valid prefix hdr sep obj hdr' options pid :
  decode_header valid prefix hdr sep = Ok (obj, hdr') ->
  exists hdr2 s2, encode_header options pid obj hdr' = Ok hdr2 /\ vnth 2 hdr = Ok (VStr s2) /\
    length hdr2 = length hdr /\ (forall j, j <> 2%nat -> vnth j hdr2 = vnth j hdr) /\
    h_name obj = (if negb (length prefix =? 0)%nat && starts prefix (str_decode s2) then skipn (length prefix) (str_decode s2) else str_decode s2) /\
    ((exists p, options = Some p /\ ~ In 47%N pid /\ owned hdr /\ vnth 2 hdr2 = Ok (VStr (str_encode (p ++ h_name obj)))) \/
     ((options = None \/ In 47%N pid \/ ~ owned hdr) /\ vnth 2 hdr2 = vnth 2 hdr')) /\
    vnth 2 hdr' = (if negb (length prefix =? 0)%nat && starts prefix (str_decode s2) then Ok (VStr (str_encode (h_name obj))) else Ok (VStr s2)).
Proof.
  intros H. destruct (decode_facts _ _ _ _ H) as (l1 & s2 & E1 & E2 & E3 & Hlen & Hoth & H0 & H2 & Hname & H1).
  unfold encode_header. rewrite H1. cbn [bind vlist].
  assert (Hl1 : exists x, vnth 2 (if sep then match vset 2 (VStr in_separate_file) l1 with Ok l => l | Err _ => l1 end else l1) = Ok x /\
     vset 2 (VStr (h_uuid obj)) (if sep then match vset 2 (VStr in_separate_file) l1 with Ok l => l | Err _ => l1 end else l1) = Ok l1).
  { destruct sep; [|exists (VStr (h_uuid obj)); split; [exact E2|apply vset_same; exact E2]].
    destruct (vset_ok 2 (VStr in_separate_file) l1 E2) as (l1' & A & B & C & D & D'). rewrite A.
    exists (VStr in_separate_file). split; [exact B|]. rewrite D'. apply vset_same; exact E2. }
  destruct Hl1 as (x & _ & Hs). rewrite Hs. cbn [bind].
  destruct (vset_ok 1 (VList l1) hdr' H1) as (hd & A & B & C & D & _). rewrite A. cbn [bind].
  assert (Hall : forall j, j <> 2%nat -> vnth j hd = vnth j hdr).
  { intros j Hj. destruct j as [|[|[|j]]].
    - rewrite D by lia. exact H0.
    - rewrite B. symmetry. exact E1.
    - congruence.
    - rewrite D by lia. apply Hoth. lia. }
  assert (Hown : is_own hd = Ok true /\ owned hdr \/ is_own hd = Ok false /\ ~ owned hdr).
  { unfold is_own, owned. rewrite C, Hlen. destruct (Nat.ltb_spec (length hdr) 6) as [Hl|Hl]; [left; auto|].
    rewrite (Hall 5%nat) by lia. destruct (vnth 5 hdr) as [v5|] eqn:E5.
    2: { exfalso. unfold vnth in E5. destruct (nth_error hdr 5) eqn:E6; [discriminate|]. apply nth_error_None in E6. lia. }
    cbn [bind]. destruct v5 as [|s5|l5].
    - right. split; [reflexivity|]. intros [X|X]; [lia|discriminate].
    - destruct (str_eqb s5 [48%N]) eqn:E6.
      + apply str_eqb_spec in E6. subst. left. split; [reflexivity|]. right. reflexivity.
      + apply str_eqb_neq in E6. right. split; [reflexivity|]. intros [X|X]; [lia|congruence].
    - right. split; [reflexivity|]. intros [X|X]; [lia|discriminate]. }
  assert (Hkeep : (options = None \/ In 47%N pid \/ ~ owned hdr) -> exists hdr2 s2, @Ok (list val) hd = Ok hdr2 /\ vnth 2 hdr = Ok (VStr s2) /\
    length hdr2 = length hdr /\ (forall j, j <> 2%nat -> vnth j hdr2 = vnth j hdr) /\
    h_name obj = (if negb (length prefix =? 0)%nat && starts prefix (str_decode s2) then skipn (length prefix) (str_decode s2) else str_decode s2) /\
    ((exists p, options = Some p /\ ~ In 47%N pid /\ owned hdr /\ vnth 2 hdr2 = Ok (VStr (str_encode (p ++ h_name obj)))) \/
     ((options = None \/ In 47%N pid \/ ~ owned hdr) /\ vnth 2 hdr2 = vnth 2 hdr')) /\
    vnth 2 hdr' = (if negb (length prefix =? 0)%nat && starts prefix (str_decode s2) then Ok (VStr (str_encode (h_name obj))) else Ok (VStr s2))).
  { intros Hk. exists hd, s2. split; [reflexivity|]. split; [exact E3|]. split; [congruence|]. split; [exact Hall|].
    split; [exact Hname|]. split; [|exact H2]. right. split; [exact Hk|]. apply D. discriminate. }
  destruct options as [p|]; [|apply Hkeep; auto].
  destruct (mem_ch 47%N pid) eqn:Em.
  { apply Hkeep. right. left. unfold mem_ch in Em. apply existsb_exists in Em. destruct Em as (y & Hy & Ey). apply N.eqb_eq in Ey. subst. exact Hy. }
  destruct Hown as [[Ho Hp]|[Ho Hp]]; rewrite Ho; cbn [bind]; [|apply Hkeep; auto].
  assert (Hx2 : exists y, vnth 2 hd = Ok y).
  { rewrite D by lia. rewrite H2. destruct (negb (length prefix =? 0)%nat && starts prefix (str_decode s2)); eauto. }
  destruct Hx2 as [y Hy].
  destruct (vset_ok 2 (VStr (str_encode (p ++ h_name obj))) hd Hy) as (hd2 & A2 & B2 & C2 & D2 & _). rewrite A2.
  exists hd2, s2. split; [reflexivity|]. split; [exact E3|]. split; [congruence|].
  split; [intros j Hj; rewrite D2 by exact Hj; apply Hall; exact Hj|]. split; [exact Hname|]. split; [|exact H2].
  left. exists p. split; [reflexivity|]. split; [|split; [exact Hp|exact B2]].
  intros Hin. unfold mem_ch in Em. assert (existsb (N.eqb 47) pid = true) by (apply existsb_exists; exists 47%N; split; [exact Hin|reflexivity]). congruence.
Qed.

(** ** product comment *)
Lemma find_sub_some p s i : find_sub p s = Some i -> exists t, skipn i s = p ++ t /\ (i <= length s)%nat.
Proof.
  revert i. induction s as [|c s IH]; intros i; cbn [find_sub].
  - destruct (starts p []) eqn:E; [|discriminate]. intros H. injection H as <-. apply starts_spec in E. destruct E as [t E].
    exists t. split; [exact E|cbn; lia].
  - destruct (starts p (c :: s)) eqn:E.
    + intros H. injection H as <-. apply starts_spec in E. destruct E as [t E]. exists t. split; [exact E|lia].
    + destruct (find_sub p s) as [n|] eqn:E2; [|discriminate]. intros H. injection H as <-.
      destruct (IH n eq_refl) as (t & H1 & H2). exists t. split; [exact H1|cbn; lia].
Qed.
Lemma find_sub_min p s i j : find_sub p s = Some i -> (j < i)%nat -> starts p (skipn j s) = false.
Proof.
  revert i j. induction s as [|c s IH]; intros i j; cbn [find_sub].
  - destruct (starts p []) eqn:E; [|discriminate]. intros H Hj. injection H as <-. lia.
  - destruct (starts p (c :: s)) eqn:E.
    + intros H Hj. injection H as <-. lia.
    + destruct (find_sub p s) as [n|] eqn:E2; [|discriminate]. intros H Hj. injection H as <-.
      destruct j as [|j]; [exact E|]. cbn [skipn]. eapply IH; [reflexivity|lia].
Qed.
Lemma find_sub_intro p s i : (i <= length s)%nat -> starts p (skipn i s) = true -> (forall j, (j < i)%nat -> starts p (skipn j s) = false) ->
  find_sub p s = Some i.
Proof.
  revert i. induction s as [|c s IH]; intros i Hi Hs Hm; cbn [find_sub].
  - cbn in Hi. assert (i = O) as -> by lia. cbn [skipn] in Hs. rewrite Hs. reflexivity.
  - destruct i as [|i]; [cbn [skipn] in Hs; rewrite Hs; reflexivity|].
    rewrite (Hm O ltac:(lia) : starts p (c :: s) = false). rewrite (IH i); [reflexivity|cbn in Hi; lia|exact Hs|].
    intros j Hj. apply (Hm (S j)). lia.
Qed.
Lemma starts_prefix_agree p a b : (length p <= length a)%nat -> starts p (a ++ b) = starts p a.
Proof.
  revert a. induction p as [|x p IH]; intros a Ha; [reflexivity|]. destruct a as [|y a]; [cbn in Ha; lia|].
  cbn. rewrite IH by (cbn in Ha; lia). reflexivity.
Qed.

(** Whatever follows, the mark is found at the same place again. *)
Lemma find_ver_again c i rest : find_sub ver_mark c = Some i -> find_sub ver_mark (firstn (i + 3) c ++ 58%N :: rest) = Some i.
Proof.
  intros H. destruct (find_sub_some _ _ H) as (t & Ht & Hi).
  assert (Hlen : length (firstn (i + 3) c) = (i + 3)%nat).
  { apply firstn_length_le. apply (f_equal (@length N)) in Ht. rewrite skipn_length, app_length in Ht. cbn [length ver_mark] in Ht. lia. }
  assert (Hc : firstn (i + 3) c = firstn i c ++ firstn 3 ver_mark).
  { rewrite <- (firstn_skipn i c) at 1. rewrite Ht, firstn_app. rewrite firstn_firstn, Nat.min_r by lia.
    rewrite firstn_length_le by lia. replace (i + 3 - i)%nat with 3%nat by lia. reflexivity. }
  apply find_sub_intro.
  - rewrite app_length, Hlen. lia.
  - rewrite Hc, <- app_assoc. rewrite skipn_app, skipn_all2 by (rewrite firstn_length_le; lia).
    rewrite firstn_length_le by lia. rewrite Nat.sub_diag. reflexivity.
  - intros j Hj. pose proof (find_sub_min _ _ H Hj) as Hm.
    rewrite skipn_app, Hlen. replace (j - (i + 3))%nat with 0%nat by lia. cbn [skipn].
    rewrite starts_prefix_agree by (rewrite skipn_length, Hlen; cbn [length ver_mark]; lia).
    rewrite <- (firstn_skipn (i + 3) c) in Hm. rewrite skipn_app, Hlen in Hm. replace (j - (i + 3))%nat with 0%nat in Hm by lia. cbn [skipn] in Hm.
    rewrite starts_prefix_agree in Hm by (rewrite skipn_length, Hlen; cbn [length ver_mark]; lia). exact Hm.
Qed.

Lemma set_comment_shape v p c i : v <> [] -> find_sub ver_mark c = Some i ->
  exists rest, set_product_comment true v p c = firstn (i + 3) c ++ 58%N :: rest /\ rest = v ++ (match p with [] => [] | _ => 58%N :: p end).
Proof.
  intros Hv H. unfold set_product_comment. destruct v as [|x v]; [congruence|]. rewrite H. cbn [length Nat.eqb].
  destruct p as [|y p]; cbn [length Nat.eqb app join]; eexists; (split; [reflexivity|]).
  - rewrite app_nil_r. reflexivity.
  - reflexivity.
Qed.
Lemma set_comment_last_wins v1 p1 v2 p2 c : v1 <> [] -> v2 <> [] ->
  set_product_comment true v2 p2 (set_product_comment true v1 p1 c) = set_product_comment true v2 p2 c.
Proof.
  intros H1 H2. destruct (find_sub ver_mark c) as [i|] eqn:E.
  - destruct (@set_comment_shape v1 p1 c i H1 E) as (rest & E1 & _). rewrite E1.
    pose proof (@find_ver_again c i rest E) as E2.
    destruct (@set_comment_shape v2 p2 _ i H2 E2) as (r2 & E3 & Hr2). rewrite E3.
    destruct (@set_comment_shape v2 p2 c i H2 E) as (r3 & E4 & Hr3). rewrite E4. subst r2 r3. f_equal.
    destruct (find_sub_some _ _ E) as (t & Ht & Hi).
    assert (Hlen : length (firstn (i + 3) c) = (i + 3)%nat).
    { apply firstn_length_le. apply (f_equal (@length N)) in Ht. rewrite skipn_length, app_length in Ht. cbn [length ver_mark] in Ht. lia. }
    rewrite firstn_app, Hlen, Nat.sub_diag. cbn [firstn]. rewrite app_nil_r. rewrite firstn_all2 by lia. reflexivity.
  - assert (Hid : forall v p, set_product_comment true v p c = c).
    { intros v p. unfold set_product_comment. rewrite E. destruct (length v =? 0)%nat; reflexivity. }
    rewrite !Hid. reflexivity.
Qed.

(** ** the fields read from a header *)
Fixpoint loc_pairs (locs : list (list N * list N)) : list val :=
  match locs with [] => [] | (k, v) :: r => VStr (str_encode k) :: VStr (str_encode v) :: loc_pairs r end.
Lemma loc_nth pre locs c more k v post : locs = pre ++ (k, v) :: post ->
  vnth (length pre * 2 + 1) (c :: loc_pairs locs ++ more) = Ok (VStr (str_encode k)) /\
  vnth (length pre * 2 + 2) (c :: loc_pairs locs ++ more) = Ok (VStr (str_encode v)).
Proof.
  intros ->. unfold vnth.
  assert (E : forall p q, nth_error (loc_pairs (p ++ (k, v) :: q) ++ more) (length p * 2) = Some (VStr (str_encode k)) /\
            nth_error (loc_pairs (p ++ (k, v) :: q) ++ more) (length p * 2 + 1) = Some (VStr (str_encode v))).
  { clear. induction p as [|[k' v'] p IH]; intros q; [split; reflexivity|]. cbn [length app loc_pairs Nat.mul Nat.add nth_error]. apply IH. }
  destruct (E pre post) as [E1 E2].
  replace (length pre * 2 + 1)%nat with (S (length pre * 2)) by lia.
  replace (length pre * 2 + 2)%nat with (S (length pre * 2 + 1)) by lia. cbn [nth_error].
  rewrite E1, E2. split; reflexivity.
Qed.
Lemma dset_new {V} k (v : V) d : ~ In k (map fst d) -> dset k v d = d ++ [(k, v)].
Proof.
  induction d as [|[k' v'] d IH]; intros H; [reflexivity|]. cbn [dset map fst app In] in *.
  destruct (str_eqb k k') eqn:E; [apply str_eqb_spec in E; subst; tauto|]. rewrite IH by tauto. reflexivity.
Qed.
Lemma read_name2_ok c more : forall post pre, NoDup (map fst (pre ++ post)) ->
  read_name2 (c :: loc_pairs (pre ++ post) ++ more) (length post) (length pre) pre = Ok (pre ++ post).
Proof.
  induction post as [|[k v] post IH]; intros pre Hn; cbn [length read_name2]; [rewrite app_nil_r; reflexivity|].
  destruct (@loc_nth pre (pre ++ (k, v) :: post) c more k v post eq_refl) as [E1 E2]. rewrite E1. cbn [bind vstr]. rewrite E2. cbn [bind vstr].
  rewrite !str_decode_encode. rewrite dset_new.
  2:{ rewrite map_app in Hn. cbn [map fst] in Hn. apply NoDup_remove_2 in Hn. intros H. apply Hn. apply in_or_app. left. exact H. }
  replace (S (length pre)) with (length (pre ++ [(k, v)])) by (rewrite app_length; cbn; lia).
  replace (pre ++ (k, v) :: post) with ((pre ++ [(k, v)]) ++ post) in * by (rewrite <- app_assoc; reflexivity).
  apply IH. exact Hn.
Qed.
