(** The elements of ordinary forms: a build puts back what the sources hold. *)
From Coq Require Import Lia Permutation.
From Verif Require Import PyBase PyInt Brace Header CalcOffset Container HeaderProofs Spec_Misc MiscProofs MetaObjBase FormCode Payload MetaObj FormElem Spec_FormElem FormElemBase FormElemProofs Form27 Spec_Form27.
Set Implicit Arguments.
Open Scope list_scope.
Open Scope N_scope.

(** ** Paths *)
Lemma calc_two path s : calc_id [path; s] = sub path s.
Proof. destruct path as [|c path], s as [|d s]; reflexivity. Qed.
Lemma calc_three path page name : calc_id [path; opt_str page; name] = sub (page_path path page) name.
Proof. destruct path as [|c path], page as [[|d p]|], name as [|e n]; cbn; rewrite ?app_nil_r, <- ?app_assoc; reflexivity. Qed.
Lemma calc_page path page : calc_id [path; opt_str page] = page_path path page.
Proof. destruct page as [p|]; [apply calc_two|]. destruct path; reflexivity. Qed.
Lemma key_sub path page name : name <> [] -> item_key path page name = sub (page_path path page) name.
Proof. intros H. destruct name as [|e n]; [congruence|]. destruct path as [|c path], page as [[|d p]|]; cbn; rewrite ?app_nil_r, <- ?app_assoc; reflexivity. Qed.

(** ** Slices *)
Ltac zl := unfold zlen; cbn [app length]; repeat (rewrite app_length; cbn [app length]); lia.
Lemma clampi_in n i : (0 <= i <= n)%Z -> clampi n i = i.
Proof. intros H. unfold clampi. replace (i <? 0)%Z with false by lia. lia. Qed.
Lemma pyslice_mid a b c : pyslice (a ++ b ++ c) (zlen a) (zlen (a ++ b)) = b.
Proof.
  unfold pyslice. rewrite !clampi_in by (rewrite !zlen_app; pose proof (zlen_nonneg a); pose proof (zlen_nonneg b); pose proof (zlen_nonneg c); lia).
  rewrite zlen_app. replace (zlen a + zlen b - zlen a)%Z with (zlen b) by lia. unfold zlen. rewrite !Nat2Z.id. rewrite skipn_app, skipn_all, Nat.sub_diag. cbn [app skipn]. rewrite firstn_app, firstn_all, Nat.sub_diag. cbn. apply app_nil_r.
Qed.
Lemma pyslice_mid' a b c i j : i = zlen a -> j = zlen (a ++ b) -> pyslice (a ++ b ++ c) i j = b.
Proof. intros -> ->. apply pyslice_mid. Qed.
Lemma pydel_mid a b c i j : i = zlen a -> j = zlen (a ++ b) -> pydel (a ++ b ++ c) i j = a ++ c.
Proof.
  intros -> ->. unfold pydel. rewrite !clampi_in by (rewrite !zlen_app; pose proof (zlen_nonneg a); pose proof (zlen_nonneg b); pose proof (zlen_nonneg c); lia).
  replace (Z.max (zlen a) (zlen (a ++ b))) with (zlen (a ++ b)) by (rewrite zlen_app; pose proof (zlen_nonneg b); lia). unfold zlen. rewrite !Nat2Z.id, app_assoc.
  rewrite skipn_app, skipn_all, Nat.sub_diag. rewrite <- app_assoc, firstn_app, firstn_all, Nat.sub_diag. cbn. rewrite app_nil_r. reflexivity.
Qed.

Lemma insert_infos f w b infos t : zput (zlen f) (VStr t) (pyslice (f ++ w :: b) 0 (zlen f + 1) ++ infos ++ pyslice (f ++ w :: b) (zlen f + 1) (zlen (f ++ w :: b))) = Ok (f ++ VStr t :: infos ++ b).
Proof.
  assert (E : f ++ w :: b = [] ++ (f ++ [w]) ++ b) by (cbn [app]; rewrite <- app_assoc; reflexivity). rewrite E at 1. rewrite pyslice_mid' by zl.
  assert (E' : f ++ w :: b = (f ++ [w]) ++ b ++ []) by (rewrite app_nil_r, <- app_assoc; reflexivity). rewrite E' at 1. rewrite pyslice_mid' by zl.
  rewrite <- app_assoc. cbn [app]. apply zput_mid.
Qed.
(** ** Pages *)
Lemma pages_place p v more : pages_fit p -> pages_off (pg_front p ++ v :: more) = Ok (zlen (pg_front p)).
Proof.
  intros [(x & data & -> & Hl) _]. exact (@place_calc [(2, 1); (1, 1); (1, 1); (1, 1); (1, 1); (1, 1)]%Z 4 x data (VStr []) ltac:(lia) Hl v more).
Qed.
(** ** Induction on elements *)
Section Ind.
Variable Q : pelem -> Prop.
Hypothesis Hplain : forall ty id name page mid geo geo' pt x nm last, Q (Plain ty id name page mid geo geo' pt x nm last).
Hypothesis Hpanel : forall id name page h pages more mid geo geo' pt x nm kids after, Forall Q kids -> Q (Panel id name page h pages more mid geo geo' pt x nm kids after).
Fixpoint pelem_ind2 (e : pelem) : Q e :=
  match e with
  | Plain ty id name page mid geo geo' pt x nm last => Hplain ty id name page mid geo geo' pt x nm last
  | Panel id name page h pages more mid geo geo' pt x nm kids after =>
    Hpanel id name page h pages more mid geo geo' pt x nm after ((fix go (l : list pelem) : Forall Q l := match l with [] => Forall_nil Q | x :: r => Forall_cons x (pelem_ind2 x) (go r) end) kids)
  end.
End Ind.
Lemma plain_known ty : In ty (map fst plain_types) -> exists t, dget ty plain_types = Some t /\ dget ty types27 = Some t /\ str_eqb t n_panel = false.
Proof. intros H. cbn [map fst plain_types In] in H. repeat (destruct H as [<-|H]; [eexists; split; [|split]; reflexivity|]). destruct H. Qed.

Section Enc.
Variable names : list (list N * val).
Variable data : list (list N * entry27).
Lemma enc_list_ok path l : (forall n r, In (n, r) l -> exists f i, dget (sub path n) data = Some (EPage f (VList r) i)) ->
  enc_page_list data path (map fst l) = Ok (map (fun x => VList (snd x)) l, concat (map (fun n => info_of data (sub path n)) (map fst l))).
Proof.
  induction l as [|[n r] l IH]; intros H; [reflexivity|]. cbn [map fst snd enc_page_list concat]. rewrite calc_two. destruct (H n r) as (f & i & E); [left; reflexivity|].
  unfold info_of at 1. rewrite E. cbn [bind]. rewrite IH by (intros n' r' Hi; apply H; right; exact Hi). cbn [bind]. destruct i; reflexivity.
Qed.
Definition pages_kept (path : list N) (p : ppages) : Prop :=
  dget (sub path pages_word) data = Some (EPages (pg_names p)) /\
  (forall n r, In (n, r) (pg_list p) -> exists f i, dget (sub path n) data = Some (EPage f (VList r) i)) /\
  concat (map (fun n => info_of data (sub path n)) (pg_names p)) = pg_info p.
Lemma enc_pages_ok path p : pages_fit p -> pages_kept path p -> enc_pages data path (pages_bare p) = Ok (pages_raw p).
Proof.
  intros Hf (Hw & Hp & Hi). unfold enc_pages, pages_bare. rewrite pages_place by exact Hf. cbn [bind]. rewrite py_nth_mid. cbn [bind vlist vnth nth_error]. rewrite calc_two.
  change s_pages with pages_word. rewrite Hw. unfold pg_names. rewrite enc_list_ok by exact Hp. cbn [bind]. unfold pg_names in Hi. rewrite Hi.
  rewrite zput_mid. cbn [bind firstn skipn app]. rewrite app_nil_r. destruct Hf as [_ Hg].
  assert (Eg : exists g0 g1 g2, pg_gap p = [g0; g1; g2]). { destruct (pg_gap p) as [|g0 [|g1 [|g2 [|? ?]]]]; try discriminate. eauto. }
  destruct Eg as (g0 & g1 & g2 & Eg). unfold pages_raw. rewrite Eg. cbn [app].
  set (pl := VList _). assert (El : pl = VList (pg_ver p :: number (length (pg_list p)) :: map (fun x => VList (snd x)) (pg_list p))).
  { unfold pl, number. unfold zlen. rewrite map_length. reflexivity. }
  rewrite <- El. clearbody pl.
  assert (E : forall w b, pg_front p ++ pl :: g0 :: g1 :: g2 :: w :: b = (pg_front p ++ [pl; g0; g1; g2]) ++ w :: b) by (intros; rewrite <- app_assoc; reflexivity).
  rewrite !E. replace (zlen (pg_front p) + 4)%Z with (zlen (pg_front p ++ [pl; g0; g1; g2])) by (rewrite zlen_app, !zlen_cons, zlen_nil; lia).
  unfold number. apply insert_infos.
Qed.
Definition kept_in (key : list N) (k : kept) : Prop :=
  match k with
  | KPage _ r => exists f i, dget key data = Some (EPage f (VList r) i)
  | KPages ns => dget key data = Some (EPages ns)
  | KElem _ e => exists id page prop, dget key data = Some (EElem id page (pbare e) prop) /\ match prop with Some (c :: r) => exists v, dget (c :: r) names = Some v /\ truthy v = true | _ => True end
  end.
Definition infos_in (path : list N) (p : ppages) : Prop := concat (map (fun n => info_of data (sub path n)) (pg_names p)) = pg_info p.
Lemma kept_pages_in path p : (forall key k, In (key, k) (kept_pages path p) -> kept_in key k) -> infos_in path p -> pages_kept path p.
Proof.
  intros H Hi. split; [|split; [|exact Hi]].
  - apply (H (sub path pages_word) (KPages (pg_names p))). apply in_or_app. right. left. reflexivity.
  - intros n r Hn. apply (H (sub path n) (KPage n r)). apply in_or_app. left. apply in_map_iff. exists (n, r). auto.
Qed.
Lemma prop_step (prop : option (list N)) : match prop with Some (c :: r) => exists v, dget (c :: r) names = Some v /\ truthy v = true | _ => True end ->
  match prop with Some (c :: r) => match dget (c :: r) names with Some v => if truthy v then Ok tt else Err ExtExc | None => Err ExtExc end | _ => Ok tt end = Ok tt.
Proof. destruct prop as [[|c r]|]; [reflexivity| |reflexivity]. intros (v & -> & ->). reflexivity. Qed.
Lemma put_elems_ok kids after : (kids = [] \/ after = []) -> put_elems (map praw kids) (kids_bare kids after) = Ok (number (length kids) :: map praw kids ++ after).
Proof.
  intros H. unfold put_elems, kids_bare, number, zlen. rewrite map_length. destruct H as [-> | ->]; [cbn [map]; rewrite app_nil_r; reflexivity|]. rewrite app_nil_r. reflexivity.
Qed.
Lemma vneg_last l (x : val) : vneg 1 (l ++ [x]) = Ok x.
Proof. unfold vneg. rewrite app_length. cbn [length]. replace (length l + 1 <? 1)%nat with false by (symmetry; apply Nat.ltb_ge; lia). replace (length l + 1 - 1)%nat with (length l) by lia. unfold vnth. rewrite nth_error_app2, Nat.sub_diag by lia. reflexivity. Qed.
Lemma set_last l (x y : val) : set_nth (length (l ++ [x]) - 1) y (l ++ [x]) = l ++ [y].
Proof. rewrite app_length. cbn [length]. replace (length l + 1 - 1)%nat with (length l) by lia. induction l as [|z l IH]; [reflexivity|]. cbn. rewrite IH. reflexivity. Qed.
Lemma enc_elem_ok e : forall nms path, pelem_ok false nms e -> (forall key k, In (key, k) (kept_elem path e) -> kept_in key k) -> (forall q p, In (q, p) (panels path e) -> infos_in q p) ->
  enc_elem27 names data path (pitem e) = Ok (praw e).
Proof.
  induction e as [ty id name page mid geo geo' pt x nm last|id name page h pages more mid geo geo' pt x nm kids after IH] using pelem_ind2; intros nms path Hok Hk Hi.
  - inversion Hok as [? ? ? ? ? ? ? ? ? ? ? ? Ht Hn _|]; subst. cbn [pitem enc_elem27]. rewrite key_sub by exact Hn.
    destruct (Hk (sub (page_path path page) name) (KElem (page_path path page) (Plain ty id name page mid geo geo' pt x nm last))) as (i & pg & prop & E & Hp); [left; reflexivity|].
    rewrite E. rewrite prop_step by exact Hp. cbn [bind pbare praw vget nth_error]. destruct (plain_known Ht) as (t & -> & _ & ->). reflexivity.
  - inversion Hok as [|? ? ? ? ? ? ? ? ? ? ? ? ? ? ? Hn _ Hf Ha Hks]; subst. cbn [pitem enc_elem27]. rewrite key_sub by exact Hn.
    set (el := Panel id name page h pages more mid geo geo' pt x nm kids after) in *.
    destruct (Hk (sub (page_path path page) name) (KElem (page_path path page) el)) as (i & pg & prop & E & Hp); [left; reflexivity|].
    rewrite E. rewrite prop_step by exact Hp. cbn [bind]. unfold el at 1 2. cbn [pbare vget nth_error bind vstr vlist vnth]. change (str_eqb panel_word n_panel) with true. cbv iota.
    rewrite calc_three. set (inner := inner_path _). change (inner_path (sub (page_path path page) name)) with (inside_of (sub (page_path path page) name)) in inner.
    assert (Hkeys : forall key k, In (key, k) (kept_pages inner pages ++ flat_map (kept_elem inner) kids) -> kept_in key k) by (intros key k H; apply Hk; right; exact H).
    rewrite enc_pages_ok; [|exact Hf|apply kept_pages_in; [intros key k H; apply Hkeys, in_or_app; left; exact H|apply Hi; left; reflexivity]].
    cbn [bind Payload.vset nth_error set_nth].
    set (go := fix go (l : list titem) : res (list val) := match l with [] => Ok [] | x :: r => z <- enc_elem27 names data inner x ;; zs <- go r ;; Ok (z :: zs) end).
    assert (Hgo : go (map pitem kids) = Ok (map praw kids)).
    { assert (Hks' : forall key k, In (key, k) (flat_map (kept_elem inner) kids) -> kept_in key k) by (intros key k H; apply Hkeys, in_or_app; right; exact H).
      assert (Hi' : forall q p, In (q, p) (flat_map (panels inner) kids) -> infos_in q p) by (intros q p H; apply Hi; right; exact H).
      clear -IH Hks Hks' Hi'. induction kids as [|c kids IHk]; [reflexivity|]. inversion IH as [|? ? IHc IHr]; subst. inversion Hks as [|? ? Hc Hr]; subst. cbn [map flat_map] in *.
      unfold go. cbn [map]. fold go. rewrite (IHc _ inner Hc); [|intros key k H; apply Hks', in_or_app; left; exact H|intros q p H; apply Hi', in_or_app; left; exact H].
      cbn [bind]. rewrite IHk; [reflexivity|exact IHr|exact Hr|intros key k H; apply Hks', in_or_app; right; exact H|intros q p H; apply Hi', in_or_app; right; exact H]. }
    match goal with |- context [vneg 1 ?l] => replace l with ((VStr panel_id :: VStr id :: VList (h :: VList (pages_raw pages) :: more) :: mid ++ [VList (geo ++ pt :: geo'); VList (x :: quoted name :: nm)]) ++ [VList (kids_bare kids after)]) by (cbn [app]; rewrite <- app_assoc; reflexivity) end.
    rewrite vneg_last. cbn [bind vlist]. change ((fix go (l : list titem) : res (list val) := match l with [] => Ok [] | x :: r => z <- enc_elem27 names data inner x ;; zs <- go r ;; Ok (z :: zs) end) (map pitem kids)) with (go (map pitem kids)).
    rewrite Hgo. cbn [bind]. rewrite put_elems_ok by exact Ha. cbn [bind]. rewrite set_last. unfold el. cbn [praw app]. rewrite <- app_assoc. reflexivity.
Qed.
Lemma enc_elems_ok nms es : Forall (pelem_ok false nms) es -> (forall key k, In (key, k) (flat_map (kept_elem []) es) -> kept_in key k) -> (forall q p, In (q, p) (flat_map (panels []) es) -> infos_in q p) ->
  mapm (enc_elem27 names data []) (map pitem es) = Ok (map praw es).
Proof.
  induction es as [|e es IH]; intros Ho Hk Hi; [reflexivity|]. inversion Ho; subst. cbn [map mapm flat_map] in *.
  rewrite (@enc_elem_ok e nms []); [|assumption|intros key k H'; apply Hk, in_or_app; left; exact H'|intros q p H'; apply Hi, in_or_app; left; exact H']. cbn [bind].
  rewrite IH; [reflexivity|assumption|intros key k H'; apply Hk, in_or_app; right; exact H'|intros q p H'; apply Hi, in_or_app; right; exact H'].
Qed.
End Enc.
