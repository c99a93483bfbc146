(** The entry points: extract, build, the commands over a file of products, the command line. *)
From Coq Require Import String.
From Verif Require Import PyBase PyInt Paths Json UpdateDict OrgCode Driver Spec_Driver DriverProofs DriverMain DriverProducts.
Set Implicit Arguments.
Open Scope list_scope.

Section Api.
  (** the current folder, the JSON files on a disk, tempfile.mkdtemp, os.path.basename and the
      stages: any functions *)
  Variable cwd : path.
  Variable load : disk -> path -> option jdict.
  Variable mkdtemp : disk -> path.
  Variable container_extract decompress : path -> path -> act.
  Variable decode : path -> path -> json -> act.
  Variable unpack pack : path -> path -> option jdict -> json -> act.
  Variable encode : path -> path -> path -> json -> act.
  Variable compress container_build : path -> path -> act.
  Variable base_name : path -> path.
  Variable update_index : json -> json -> json -> act.

  Notation extract := (extract cwd load mkdtemp container_extract decompress decode unpack).
  Notation build := (build cwd load mkdtemp pack encode compress container_build base_name).
  Notation build_all := (build_all cwd load mkdtemp pack encode compress container_build base_name).
  Notation extract_all := (extract_all cwd load mkdtemp container_extract decompress decode unpack).
  Notation update_index_all := (update_index_all load update_index).
  Notation main := (main cwd load mkdtemp container_extract decompress decode unpack pack encode compress container_build base_name update_index).

  Lemma build_exc c n w w' e : build c n w = (w', Err e) -> e = ExtExc.
  Proof. intros H. unfold Driver.build in H. exact (wrapped_err _ _ H eq_refl). Qed.
  Lemma extract_exc c n w w' e : extract c n w = (w', Err e) -> e = ExtExc.
  Proof. intros H. unfold Driver.extract in H. exact (wrapped_err _ _ H eq_refl). Qed.

  (** C86: without a product code every enabled product is done, in the order of the file, each
      with its own parameters; the first error ends the command *)
Theorem C86_build_all file n w w' r products cs :
    load w file = Some products -> to_do asks_build products cs ->
    build_all file [] n w = (w', r) ->
    exists cs', to_do asks_build products cs' /\ in_order (fun c => build c n) cs' w w' r.
  Proof.
    intros Hl Ht E. unfold Driver.build_all, over in E. rewrite Hl in E. cbn [select] in E.
    destruct (each (fun name params => run_call (build_call name params) (fun c => build c n)) products w) as [v s] eqn:Ee.
    destruct (@each_in_order _ asks_build build_call (fun c => build c n)
                (fun nm d => @build_call_off nm d) (fun nm d c => @build_call_on nm d c) (fun c => @build_exc c n) products cs w v s Ht Ee)
      as (cs' & T & O).
    assert (Hs : forall e, s = Err e -> e = ExtExc).
    { clear -O. intros e ->. remember (Err e) as r eqn:Er. revert Er. induction O; intros Er; [discriminate|auto|congruence]. }
    rewrite (@wrapped_idem (each (fun name params => run_call (build_call name params) (fun c => build c n)) products) w v s Hs Ee) in E.
    injection E as <- <-. eauto.
  Qed.

Theorem C86_extract_all file n w w' r products cs :
    load w file = Some products -> to_do (fun _ => asks_extract) products cs ->
    extract_all file [] n w = (w', r) ->
    exists cs', to_do (fun _ => asks_extract) products cs' /\ in_order (fun c => extract c n) cs' w w' r.
  Proof.
    intros Hl Ht E. unfold Driver.extract_all, over in E. rewrite Hl in E. cbn [select] in E.
    destruct (each (fun _ params => run_call (extract_call params) (fun c => extract c n)) products w) as [v s] eqn:Ee.
    assert (Hon : forall (name : list N) d c, ~ off d -> asks_extract d c -> exists c', extract_call (JDict d) = Ok (Some c') /\ asks_extract d c')
      by (intros nm d c H1 H2; exists c; split; [apply extract_call_on; assumption|assumption]).
    destruct (@each_in_order _ (fun _ => asks_extract) (fun _ => extract_call) (fun c => extract c n)
                (fun nm d => @extract_call_off d) Hon (fun c => @extract_exc c n) products cs w v s Ht Ee)
      as (cs' & T & O).
    assert (Hs : forall e, s = Err e -> e = ExtExc).
    { clear -O. intros e ->. remember (Err e) as r eqn:Er. revert Er. induction O; intros Er; [discriminate|auto|congruence]. }
    rewrite (@wrapped_idem (each (fun _ params => run_call (extract_call params) (fun c => extract c n)) products) w v s Hs Ee) in E.
    injection E as <- <-. eauto.
  Qed.

  (** With a product code exactly that product is done, even a disabled one. *)
Theorem C86_one_product_built file code d c n w w' r products :
    load w file = Some products -> code <> [] -> dget code products = Some (JDict d) ->
    asks_build code d c -> build_all file code n w = (w', r) ->
    exists c', asks_build code d c' /\ build c' n w = (w', r).
  Proof.
    intros Hl Hc Hg Ha E. unfold Driver.build_all, over in E. rewrite Hl in E. unfold select in E. destruct code as [|x code]; [congruence|].
    rewrite Hg in E.
    set (d' := dset kd_disable (JBool false) d) in E.
    assert (Hk : forall k, k <> w_disable -> dget k d' = dget k d) by (intros k Hk; apply dget_dset_other; exact Hk).
    assert (Hn : ~ off d').
    { intros (v & Hv & T). unfold d' in Hv. change w_disable with kd_disable in Hv. rewrite dget_dset_same in Hv. injection Hv as <-. discriminate. }
    assert (Hiff : forall c0, asks_build (x :: code) d' c0 <-> asks_build (x :: code) d c0).
    { intros c0. split; apply asks_build_ext; intros k Hk'; [symmetry|]; apply Hk, Hk'. }
    destruct (build_call_on Hn (proj2 (Hiff c) Ha)) as (c' & Hb & Ha').
    exists c'. split; [apply Hiff; exact Ha'|]. revert E. unfold wrapped. cbn [each]. rewrite Hb. cbn [run_call]. unfold seq.
    destruct (build c' n w) as [v [[]|e]] eqn:Eb.
    - cbn. intros E. injection E as <- <-. reflexivity.
    - intros E. injection E as <- <-. rewrite (build_exc _ _ _ Eb). reflexivity.
  Qed.

Theorem C86_one_product_extracted file code d c n w w' r products :
    load w file = Some products -> code <> [] -> dget code products = Some (JDict d) ->
    asks_extract d c -> extract_all file code n w = (w', r) -> extract c n w = (w', r).
  Proof.
    intros Hl Hc Hg Ha E. unfold Driver.extract_all, over in E. rewrite Hl in E. unfold select in E. destruct code as [|x code]; [congruence|].
    rewrite Hg in E.
    set (d' := dset kd_disable (JBool false) d) in E.
    assert (Hk : forall k, k <> w_disable -> dget k d' = dget k d) by (intros k Hk; apply dget_dset_other; exact Hk).
    assert (Hn : ~ off d').
    { intros (v & Hv & T). unfold d' in Hv. change w_disable with kd_disable in Hv. rewrite dget_dset_same in Hv. injection Hv as <-. discriminate. }
    revert E. unfold wrapped. cbn [each]. rewrite (extract_call_on Hn (@asks_extract_ext d d' c Hk Ha)). cbn [run_call]. unfold seq.
    destruct (extract c n w) as [v [[]|e]] eqn:Eb.
    - cbn. intros E. injection E as <- <-. reflexivity.
    - intros E. injection E as <- <-. rewrite (extract_exc _ _ _ Eb). reflexivity.
  Qed.

  (** update_index over the products; an error of update_index itself is wrapped *)
Theorem C86_update_index_all file dest w w' r products cs :
    load w file = Some products -> to_do (fun _ => asks_index dest) products cs ->
    update_index_all file [] dest w = (w', r) ->
    exists cs', to_do (fun _ => asks_index dest) products cs' /\ in_order (fun c => update_index (fst (fst c)) (snd (fst c)) (snd c)) cs' w w' r.
  Proof.
    intros Hl Ht E. unfold Driver.update_index_all, over in E. rewrite Hl in E. cbn [select] in E.
    unfold wrapped in E. revert w E Hl. intros w E _. revert w E.
    induction Ht as [|name d rest cs Ho Hr IH|name d rest c cs Ho Ha Hr IH]; intros w E; cbn [each] in E.
    - unfold ret in E. injection E as <- <-. exists []. split; constructor.
    - rewrite (index_call_off dest Ho) in E. cbn [run_call] in E. unfold seq at 1, ret in E. destruct (IH w E) as (cs' & T & O). exists cs'. split; [constructor; auto|exact O].
    - rewrite (index_call_on Ho Ha) in E. cbn [run_call] in E. unfold seq at 1 in E. destruct c as [[s i] d0].
      destruct (update_index s i d0 w) as [v [[]|e]] eqn:Eu.
      + destruct (IH v E) as (cs' & T & O). exists ((s, i, d0) :: cs'). split; [constructor 3; auto|]. econstructor; [exact Eu|exact O].
      + injection E as <- <-. exists ((s, i, d0) :: cs). split; [constructor 3; auto|]. econstructor 3. exact Eu.
  Qed.

Theorem C86_missing_product file code n w products :
    load w file = Some products -> code <> [] -> dget code products = None ->
    build_all file code n w = (w, Err ExtExc) /\ extract_all file code n w = (w, Err ExtExc).
  Proof.
    intros Hl Hc Hg. unfold Driver.build_all, Driver.extract_all, over. rewrite Hl. unfold select.
    destruct code; [congruence|]. rewrite Hg. split; reflexivity.
  Qed.

  (** A product that cannot be started ends the command with the earlier products built and no
      later one. *)
Theorem C86_bad_product file n w products l1 name bad l2 cs w1 :
    load w file = Some products -> products = l1 ++ (name, bad) :: l2 -> unbuildable bad ->
    to_do asks_build l1 cs ->
    (forall cs', to_do asks_build l1 cs' -> in_order (fun c => build c n) cs' w w1 (Ok tt)) ->
    build_all file [] n w = (w1, Err ExtExc).
  Proof.
    intros Hl -> Hb Ht Ho. unfold Driver.build_all, over. rewrite Hl. cbn [select]. unfold wrapped. rewrite each_app. unfold seq.
    destruct (each (fun name params => run_call (build_call name params) (fun c => build c n)) l1 w) as [v s] eqn:Ee.
    destruct (@each_in_order _ asks_build build_call (fun c => build c n)
                (fun nm d => @build_call_off nm d) (fun nm d c => @build_call_on nm d c) (fun c => @build_exc c n) l1 cs w v s Ht Ee)
      as (cs' & T & O).
    assert (Hd : v = w1 /\ s = Ok tt).
    { specialize (Ho cs' T). clear -O Ho. revert w1 Ho. induction O as [w|c cs w w2 w3 r E O IH|c cs w w2 e E]; intros w1 Ho; inversion Ho; subst; auto.
      - apply IH. match goal with H : build c n w = _ |- _ => rewrite E in H; injection H as -> end. assumption.
      - match goal with H : build c n w = (_, Ok _) |- _ => rewrite E in H; discriminate end. }
    destruct Hd as [-> ->]. cbn [each]. destruct (unbuildable_err name Hb) as (e & He). rewrite He. reflexivity.
  Qed.

  (** C87: without inheritance the result of extract does not depend on what the folder of
      sources and the temporary folder held before: no stale file survives *)
Theorem C87_no_stale_files c n w1 w2 w1' w2' r1 r2 :
    (forall a b, respects (container_extract a b)) -> (forall a b, respects (decompress a b)) ->
    (forall a b o, respects (decode a b o)) -> (forall a b i d, respects (unpack a b i d)) ->
    (forall v1 v2, same_disk v1 v2 -> mkdtemp v1 = mkdtemp v2) ->
    no_descent (a_options c) ->
    check_index (load w1) (a_index c) = check_index (load w2) (a_index c) ->
    check_index (load w1) (a_index c) <> Ok (Some []) -> (forall e, check_index (load w1) (a_index c) <> Err e) ->
    (forall t, a_temp c = Some t -> ~ within (locate cwd t) (locate cwd (a_src c))) ->
    (forall f, ~ within (locate cwd (a_src c)) f -> (forall t, a_temp c = Some t -> ~ within (locate cwd t) f) -> w1 f = w2 f) ->
    w1 (locate cwd (a_src c)) = None -> (forall t, a_temp c = Some t -> w1 (locate cwd t) = None /\ w2 (locate cwd t) = None) ->
    extract c n w1 = (w1', r1) -> extract c n w2 = (w2', r2) -> r1 = r2 /\ same_disk w1' w2'.
  Proof. apply no_stale. Qed.

(** What a run that worked consists of: the stages, each on the folder the one before filled. *)
Theorem C87_stages c n w w' i :
    check_index (load w) (a_index c) = Ok i -> i <> Some [] -> extract c n w = (w', Ok tt) ->
    exists temp t0 t1 t3 descent w0 w1 w2 w3 w4 w5,
      (a_temp c = Some temp \/ a_temp c = None /\ temp = mkdtemp w0) /\
      within (locate cwd temp) (locate cwd t0) /\ within (locate cwd temp) (locate cwd t1) /\ within (locate cwd temp) (locate cwd t3) /\
      locate cwd t0 <> locate cwd t1 /\ locate cwd t1 <> locate cwd t3 /\ locate cwd t0 <> locate cwd t3 /\
      descent_of (some_options (a_options c)) = Ok descent /\
      (forall f, ~ within (locate cwd (a_src c)) f -> w0 f = w f) /\
      (forall f, ~ within (locate cwd temp) f -> w1 f = w0 f) /\
      container_extract (a_bin c) t0 w1 = (w2, Ok tt) /\ decompress t0 t1 w2 = (w3, Ok tt) /\
      decode t1 t3 (some_options (a_options c)) w3 = (w4, Ok tt) /\ unpack t3 (a_src c) i descent w4 = (w5, Ok tt) /\
      (forall f, ~ within (locate cwd temp) f -> w' f = w5 f).
Proof.
    intros Hi Hne E. unfold Driver.extract in E. destruct (wrapped_cases _ _ E) as [[E1 _]|(e & _ & E1)]; [|discriminate].
    clear E. rename E1 into E. rewrite Hi in E.
    destruct (descent_of (some_options (a_options c))) as [de|] eqn:Ed; [|destruct i as [[|? ?]|]; [exfalso; apply Hne; reflexivity| |]; discriminate E].
    assert (E' : seq (match de with JNull => clear_dir cwd (a_src c) | _ => ret end)
          (fun w =>
             let t := temp_of mkdtemp (a_temp c) w in
             let stage s := path_join (fst t) s in
             seq (clear_dir cwd (fst t))
             (seq (get_pool n)
             (seq (container_extract (a_bin c) (stage d_stage0))
             (seq (decompress (stage d_stage0) (stage d_stage1))
             (seq (decode (stage d_stage1) (stage d_stage3) (some_options (a_options c)))
             (seq (unpack (stage d_stage3) (a_src c) i de)
                  (drop_temp cwd t)))))) w) w = (w', Ok tt)).
    { destruct i as [[|x i]|]; [exfalso; apply Hne; reflexivity| |]; exact E. }
    clear E. destruct (seq_cases _ _ _ E') as [(w0 & A0 & B)|(? & _ & ?)]; [|discriminate]. clear E'. cbv zeta in B.
    set (t := temp_of mkdtemp (a_temp c) w0) in *. set (temp := fst t) in *.
    destruct (seq_cases _ _ _ B) as [(v1 & A1 & B1)|(? & _ & ?)]; [|discriminate]. clear B.
    destruct (seq_cases _ _ _ B1) as [(w1 & A2 & B2)|(? & _ & ?)]; [|discriminate]. clear B1.
    destruct (seq_cases _ _ _ B2) as [(w2 & A3 & B3)|(? & _ & ?)]; [|discriminate]. clear B2.
    destruct (seq_cases _ _ _ B3) as [(w3 & A4 & B4)|(? & _ & ?)]; [|discriminate]. clear B3.
    destruct (seq_cases _ _ _ B4) as [(w4 & A5 & B5)|(? & _ & ?)]; [|discriminate]. clear B4.
    destruct (seq_cases _ _ _ B5) as [(w5 & A6 & B6)|(? & _ & ?)]; [|discriminate]. clear B5.
    assert (Hl : forall s, In s [d_stage0; d_stage1; d_stage3] -> locate cwd (path_join temp s) = locate cwd temp ++ [s]).
    { intros s Hs. apply locate_join; cbn [In] in Hs; decompose [or] Hs; subst; try contradiction; try discriminate; try reflexivity;
        (repeat (constructor; [discriminate|]); constructor). }
    exists temp, (path_join temp d_stage0), (path_join temp d_stage1), (path_join temp d_stage3), de, w0, w1, w2, w3, w4, w5.
    rewrite !Hl by (cbn; auto).
    assert (Hw : forall s, within (locate cwd temp) (locate cwd temp ++ [s])) by (intros s; exists [s]; split; [discriminate|reflexivity]).
    assert (Hd : forall s s' : list N, s <> s' -> locate cwd temp ++ [s] <> locate cwd temp ++ [s']).
    { intros s s' Hs H. apply app_inv_head in H. injection H as H. contradiction. }
    split; [unfold temp, t, temp_of; destruct (a_temp c); [left; reflexivity|right; split; reflexivity]|].
    split; [apply Hw|]. split; [apply Hw|]. split; [apply Hw|]. split; [apply Hd; discriminate|]. split; [apply Hd; discriminate|]. split; [apply Hd; discriminate|].
    split; [reflexivity|]. split; [|split; [|split; [exact A3|split; [exact A4|split; [exact A5|split; [exact A6|]]]]]].
    - intros f Hf. destruct de; try (unfold ret in A0; injection A0 as <-; reflexivity). exact (@touches_clear cwd (a_src c) _ _ _ _ A0 Hf).
    - intros f Hf. rewrite (@touches_pool (fun _ => False) n _ _ _ f A2 (fun x => x)). exact (@touches_clear cwd temp _ _ _ _ A1 Hf).
    - intros f Hf. unfold drop_temp in B6. destruct (snd t); [exact (@touches_rmtree cwd temp _ _ _ _ B6 Hf)|unfold ret in B6; injection B6 as <-; reflexivity].
Qed.

(** An index that cannot be loaded is reported before anything is touched. *)
Theorem C87_bad_index c n w :
    a_index c <> [] -> load w (a_index c) = None ->
    extract c n w = (w, Err ExtExc) /\ build c n w = (w, Err ExtExc).
  Proof.
    intros Hi Hl. assert (H : check_index (load w) (a_index c) = Err ExtExc).
    { unfold check_index. destruct (a_index c); [congruence|]. rewrite Hl. reflexivity. }
    split; [exact (@extract_index_error _ _ _ _ _ _ _ c n w _ H)|exact (@build_index_error _ _ _ _ _ _ _ _ c n w _ H)].
  Qed.

  (** Not true: a call that ends without an error did its work.  With an index file that is an
      empty dictionary nothing at all happens. *)
Theorem C87_empty_index_refuted c n w :
    a_index c <> [] -> load w (a_index c) = Some [] ->
    extract c n w = (w, Ok tt) /\ build c n w = (w, Ok tt).
  Proof.
    intros Hi Hl. assert (H : check_index (load w) (a_index c) = Ok (Some [])).
    { unfold check_index. destruct (a_index c); [congruence|]. rewrite Hl. reflexivity. }
    split; [exact (@extract_empty_index _ _ _ _ _ _ _ c n w H)|exact (@build_empty_index _ _ _ _ _ _ _ _ c n w H)].
  Qed.

  (** Not true: an extract that fails leaves the sources as they were.  The folder is emptied
      before the file is opened. *)
Theorem C87_sources_lost_refuted c n w w' r t :
    a_index c = [] -> no_descent (a_options c) -> a_temp c = Some t ->
    (forall s, always_fails (container_extract (a_bin c) s)) ->
    (forall s, touches_only (within (locate cwd s)) (container_extract (a_bin c) s)) ->
    w (locate cwd (a_src c)) = None ->
    extract c n w = (w', r) ->
    r = Err ExtExc /\ (forall f, within (locate cwd (a_src c)) f -> ~ within (locate cwd t) f -> w' f = None) /\
    (forall f, ~ within (locate cwd (a_src c)) f -> ~ within (locate cwd t) f -> w' f = w f).
  Proof. apply sources_lost. Qed.

  (** C88: build writes the output file and the temporary folder, and nothing else *)
Theorem C88_only_output c n w w' r f :
    (forall a b i d, touches_only (within (locate cwd b)) (pack a b i d)) ->
    (forall a b g o, touches_only (within (locate cwd b)) (encode a b g o)) ->
    (forall a b, touches_only (within (locate cwd b)) (compress a b)) ->
    (forall a b, touches_only (fun f => f = locate cwd b) (container_build a b)) ->
    build c n w = (w', r) ->
    ~ within (locate cwd match a_temp c with Some t => t | None => mkdtemp w end) f -> f <> locate cwd (a_bin c) -> w' f = w f.
  Proof. intros H1 H2 H3 H4 E Ht Hb. eapply build_touches; eassumption. Qed.

(** The stages of a build that worked. *)
Theorem C88_stages c n w w' i :
    check_index (load w) (a_index c) = Ok i -> i <> Some [] -> build c n w = (w', Ok tt) ->
    exists temp t0 t1 t3 descent w1 w2 w3 w4 w5,
      temp = match a_temp c with Some t => t | None => mkdtemp w end /\
      within (locate cwd temp) (locate cwd t0) /\ within (locate cwd temp) (locate cwd t1) /\ within (locate cwd temp) (locate cwd t3) /\
      locate cwd t0 <> locate cwd t1 /\ locate cwd t1 <> locate cwd t3 /\ locate cwd t0 <> locate cwd t3 /\
      descent_of (some_options (a_options c)) = Ok descent /\
      (forall f, ~ within (locate cwd temp) f -> w1 f = w f) /\
      pack (a_src c) t3 i descent w1 = (w2, Ok tt) /\ encode t3 t1 (base_name (a_bin c)) (some_options (a_options c)) w2 = (w3, Ok tt) /\
      compress t1 t0 w3 = (w4, Ok tt) /\ container_build t0 (a_bin c) w4 = (w5, Ok tt) /\
      (forall f, ~ within (locate cwd temp) f -> w' f = w5 f).
Proof.
    intros Hi Hne E. unfold Driver.build in E. destruct (wrapped_cases _ _ E) as [[E1 _]|(e & _ & E1)]; [|discriminate].
    clear E. rename E1 into E. rewrite Hi in E.
    assert (E' : (let t := temp_of mkdtemp (a_temp c) w in
        let stage s := path_join (fst t) s in
        seq (clear_dir cwd (fst t))
        (seq (get_pool n)
        (fun w => match descent_of (some_options (a_options c)) with
         | Err e => (w, Err e)
         | Ok descent =>
           seq (pack (a_src c) (stage e_stage3) i descent)
           (seq (encode (stage e_stage3) (stage e_stage1) (base_name (a_bin c)) (some_options (a_options c)))
           (seq (compress (stage e_stage1) (stage e_stage0))
           (seq (container_build (stage e_stage0) (a_bin c))
                (drop_temp cwd t)))) w
         end)) w) = (w', Ok tt)).
    { destruct i as [[|x i]|]; [exfalso; apply Hne; reflexivity| |]; exact E. }
    clear E. cbv zeta in E'.
    set (t := temp_of mkdtemp (a_temp c) w) in *. set (temp := fst t) in *.
    destruct (seq_cases _ _ _ E') as [(v1 & A1 & B1)|(? & _ & ?)]; [|discriminate]. clear E'.
    destruct (seq_cases _ _ _ B1) as [(w1 & A2 & B2)|(? & _ & ?)]; [|discriminate]. clear B1.
    destruct (descent_of (some_options (a_options c))) as [de|] eqn:Ed; [|discriminate].
    destruct (seq_cases _ _ _ B2) as [(w2 & A3 & B3)|(? & _ & ?)]; [|discriminate]. clear B2.
    destruct (seq_cases _ _ _ B3) as [(w3 & A4 & B4)|(? & _ & ?)]; [|discriminate]. clear B3.
    destruct (seq_cases _ _ _ B4) as [(w4 & A5 & B5)|(? & _ & ?)]; [|discriminate]. clear B4.
    destruct (seq_cases _ _ _ B5) as [(w5 & A6 & B6)|(? & _ & ?)]; [|discriminate]. clear B5.
    assert (Hl : forall s, In s [e_stage0; e_stage1; e_stage3] -> locate cwd (path_join temp s) = locate cwd temp ++ [s]).
    { intros s Hs. apply locate_join; cbn [In] in Hs; decompose [or] Hs; subst; try contradiction; try discriminate; try reflexivity;
        (repeat (constructor; [discriminate|]); constructor). }
    exists temp, (path_join temp e_stage0), (path_join temp e_stage1), (path_join temp e_stage3), de, w1, w2, w3, w4, w5.
    rewrite !Hl by (cbn; auto).
    assert (Hw : forall s, within (locate cwd temp) (locate cwd temp ++ [s])) by (intros s; exists [s]; split; [discriminate|reflexivity]).
    assert (Hd : forall s s' : list N, s <> s' -> locate cwd temp ++ [s] <> locate cwd temp ++ [s']).
    { intros s s' Hs H. apply app_inv_head in H. injection H as H. contradiction. }
    split; [unfold temp, t, temp_of; destruct (a_temp c); reflexivity|].
    split; [apply Hw|]. split; [apply Hw|]. split; [apply Hw|]. split; [apply Hd; discriminate|]. split; [apply Hd; discriminate|]. split; [apply Hd; discriminate|].
    split; [reflexivity|]. split; [|split; [exact A3|split; [exact A4|split; [exact A5|split; [exact A6|]]]]].
    - intros f Hf. rewrite (@touches_pool (fun _ => False) n _ _ _ f A2 (fun x => x)). exact (@touches_clear cwd temp _ _ _ _ A1 Hf).
    - intros f Hf. unfold drop_temp in B6. destruct (snd t); [exact (@touches_rmtree cwd temp _ _ _ _ B6 Hf)|unfold ret in B6; injection B6 as <-; reflexivity].
Qed.

  (** The old output file survives a build in which collecting the sources, encoding or
      compressing fails: it is replaced by the last stage only. *)
Theorem C88_failed_build_keeps_output c n w w' r f :
    (forall a b i d, touches_only (within (locate cwd b)) (pack a b i d)) ->
    (forall a b g o, touches_only (within (locate cwd b)) (encode a b g o)) ->
    (forall a b, touches_only (within (locate cwd b)) (compress a b)) ->
    (forall a b i d, always_fails (pack a b i d)) \/ (forall a b g o, always_fails (encode a b g o)) \/
      (forall a b, always_fails (compress a b)) ->
    build c n w = (w', r) ->
    ~ within (locate cwd match a_temp c with Some t => t | None => mkdtemp w end) f -> w' f = w f.
  Proof. intros H1 H2 H3 H4 E Ht. eapply build_fails; eassumption. Qed.

  (** A temporary folder build made itself is empty after a build that worked. *)
Theorem C88_own_temp_removed c n w w' i f :
    a_temp c = None -> check_index (load w) (a_index c) = Ok i -> i <> Some [] ->
    build c n w = (w', Ok tt) -> within (locate cwd (mkdtemp w)) f -> w' f = None.
  Proof. intros H1 H2 H3 E Hf. eapply build_temp_gone; eassumption. Qed.

  (** Not true: build writes nothing outside its output.  With temp_dir='' the current folder is
      the temporary folder and everything in it is deleted (here: even when the first stage fails
      without doing anything). *)
Theorem C88_empty_temp_refuted c n w w' r :
    a_index c = [] -> a_temp c = Some [] -> (forall a b i d v, pack a b i d v = (v, Err GenericException)) ->
    w (locate cwd []) = None -> build c n w = (w', r) ->
    r = Err ExtExc /\ forall f, within (locate cwd []) f -> w' f = None.
  Proof.
    intros Hi Ht Hp Hc E. unfold Driver.build, wrapped in E. rewrite Hi, Ht in E. cbn [check_index temp_of fst] in E. cbv zeta in E.
    rewrite (seq_ok _ _ _ (clear_ok _ _ _ Hc)) in E.
    set (w1 := fun f => if inside (locate cwd []) f then None else w f) in E.
    assert (Hall : (w' = w1) /\ r = Err ExtExc).
    { unfold get_pool, seq in E. destruct n as [n|]; [destruct (n <? 1)%Z|]; try (injection E as <- <-; auto);
        (destruct (descent_of (some_options (a_options c))) as [d|]; [rewrite Hp in E|]; injection E as <- <-; auto). }
    destruct Hall as [-> ->]. split; [reflexivity|]. intros f Hf. unfold w1. apply inside_within in Hf. rewrite Hf. reflexivity.
  Qed.

  (** C89: the command line.  The options are those given (not empty, not zero); the exit code
      says whether the command worked *)
Theorem C89_options g k v :
    dget k (cli_options g) = Some v <->
      (k = w_prefix /\ exists s, g_prefix g = Some s /\ s <> [] /\ v = JStr s) \/
      (k = w_auto_include /\ g_auto_include g = true /\ v = JBool true) \/
      (k = w_descent /\ exists z, g_descent g = Some z /\ z <> 0%Z /\ v = JNum z) \/
      (k = w_version /\ exists s, g_version g = Some s /\ s <> [] /\ v = JStr s).
  Proof.
    destruct g as [m t p co i ve pr de au]. cbn [g_prefix g_auto_include g_descent g_version].
    assert (Hstr : forall o, (exists s, o = Some s /\ s <> [] /\ jopt o = JStr s /\ jtruthy (jopt o) = true) \/
                             (jtruthy (jopt o) = false /\ forall s, o = Some s -> s = [])).
    { intros [[|c s]|]; [right; split; [reflexivity|congruence]| |right; split; [reflexivity|congruence]].
      left. exists (c :: s). repeat split. discriminate. }
    assert (Hd : (exists z, de = Some z /\ z <> 0%Z /\ match de with Some z => JNum z | None => JNull end = JNum z /\
                    jtruthy (match de with Some z => JNum z | None => JNull end) = true) \/
                 (jtruthy (match de with Some z => JNum z | None => JNull end) = false /\ forall z, de = Some z -> z = 0%Z)).
    { destruct de as [z|]; [|right; split; [reflexivity|discriminate]]. cbn [jtruthy]. destruct (Z.eqb_spec z 0) as [->|Hz].
      - right. split; [reflexivity|congruence].
      - left. exists z. auto. }
    unfold cli_options. cbn [g_prefix g_auto_include g_descent g_version fold_left fst snd].
    assert (Ds : forall (k0 : list N) (v0 : json) d, dget k (dset k0 v0 d) = if str_eqb k k0 then Some v0 else dget k d).
    { intros k0 v0 d. destruct (str_eqb k k0) eqn:Ek; [apply str_eqb_spec in Ek; subst; apply dget_dset_same|].
      apply dget_dset_other. intros ->. assert (str_eqb k0 k0 = true) by (apply str_eqb_spec; reflexivity). congruence. }
    assert (Hi : forall (b : bool) (x y : jdict), dget k (if b then x else y) = if b then dget k x else dget k y) by (intros []; reflexivity).
    change kd_prefix with w_prefix. change kd_auto with w_auto_include. change kd_descent with w_descent. change kd_version with w_version.
    rewrite !Hi, !Ds, !Hi, !Ds, !Hi, !Ds, !Hi, !Ds. cbn [dget].
    assert (Kc : forall k0, str_eqb k k0 = true /\ k = k0 \/ str_eqb k k0 = false /\ k <> k0).
    { intros k0. destruct (str_eqb k k0) eqn:Ek; [left; split; [reflexivity|apply str_eqb_spec; exact Ek]|right; split; [reflexivity|]].
      intros ->. assert (str_eqb k0 k0 = true) by (apply str_eqb_spec; reflexivity). congruence. }
    cbn [jtruthy].
    destruct (Kc w_prefix) as [[E1 K1]|[E1 K1]]; rewrite E1;
    destruct (Kc w_auto_include) as [[E2 K2]|[E2 K2]]; rewrite E2;
    destruct (Kc w_descent) as [[E3 K3]|[E3 K3]]; rewrite E3;
    destruct (Kc w_version) as [[E4 K4]|[E4 K4]]; rewrite E4; try (exfalso; subst k; discriminate);
      destruct (Hstr p) as [(sp & P1 & P2 & P3 & P4)|[P4 P5]]; rewrite ?P4, ?P3;
      destruct (Hstr ve) as [(sv & V1 & V2 & V3 & V4)|[V4 V5]]; rewrite ?V4, ?V3;
      destruct Hd as [(z & D1 & D2 & D3 & D4)|[D4 D5]]; rewrite ?D4, ?D3; destruct au;
      (split; [intros H; try discriminate; injection H as <-; first [left; split; [assumption|eauto]|right; left; split; [assumption|split; reflexivity]|right; right; left; split; [assumption|eauto]|right; right; right; split; [assumption|eauto]]
              |intros [(Q & s & Q1 & Q2 & ->)|[(Q & Q1 & ->)|[(Q & y & Q1 & Q2 & ->)|(Q & s & Q1 & Q2 & ->)]]]; try contradiction; try congruence;
               first [specialize (P5 _ Q1); congruence|specialize (V5 _ Q1); congruence|specialize (D5 _ Q1); congruence|idtac]]).
  Qed.

Theorem C89_command g w w' code :
    main g w = (w', code) ->
    exists r, (code = 0%Z <-> r = Ok tt) /\ (code = 1%Z <-> exists e, r = Err e) /\
      match g_mode g with
      | ModeE file src => exists c, extract c None w = (w', r) /\ a_temp c = g_temp g /\ locate cwd (a_bin c) = locate cwd file /\
                            locate cwd (a_src c) = locate cwd src /\ a_options c = JDict (cli_options g) /\
                            a_index c = match g_index g with Some i => i | None => [] end
      | ModeB src file => exists c, build c None w = (w', r) /\ a_temp c = g_temp g /\ locate cwd (a_bin c) = locate cwd file /\
                            locate cwd (a_src c) = locate cwd src /\ a_options c = JDict (cli_options g) /\
                            a_index c = match g_index g with Some i => i | None => [] end
      | ModeEA file => extract_all file (match g_index g with Some i => i | None => [] end) None w = (w', r)
      | ModeBA file => build_all file (match g_index g with Some i => i | None => [] end) None w = (w', r)
      | ModeI src => update_index (JStr src) (match g_index g with Some i => JStr i | None => JNull end)
                       (match g_core g with Some i => JStr i | None => JNull end) w = (w', r)
      | ModeIA file => update_index_all file (match g_index g with Some i => i | None => [] end)
                       (match g_core g with Some i => JStr i | None => JNull end) w = (w', r)
      end.
  Proof.
    intros E.
    assert (H : forall a : act, (match a w with (w', Ok _) => (w', 0%Z) | (w', Err _) => (w', 1%Z) end) = (w', code) ->
      exists r, (code = 0%Z <-> r = Ok tt) /\ (code = 1%Z <-> exists e, r = Err e) /\ a w = (w', r)).
    { intros a. destruct (a w) as [v [[]|e]]; intros Ea; injection Ea as <- <-; [exists (Ok tt)|exists (Err e)];
        (split; [|split; [|reflexivity]]); split; intros Q; try discriminate; try reflexivity; eauto. destruct Q; discriminate. }
    unfold Driver.main in E. destruct (H _ E) as (r & H1 & H2 & H3). exists r. split; [exact H1|]. split; [exact H2|].
    destruct (g_mode g); try exact H3; eexists; (split; [exact H3|]); cbn [a_temp a_bin a_src a_options a_index];
      rewrite !locate_absolute; repeat split.
  Qed.

  (** Not true: --processes sets the number of processes.  It is parsed and never used. *)
Theorem C89_processes_refuted g n :
    main (mkargs (g_mode g) (g_temp g) (g_prefix g) (g_core g) (g_index g) (g_version g) n (g_descent g) (g_auto_include g)) = main g.
  Proof. destruct g; reflexivity. Qed.

  (** Not true: the options of the command line hold for the products of a file.  -BA and -EA
      look at --index alone, as the code of the product. *)
Theorem C89_products_options_refuted g g' file :
    g_mode g = ModeBA file \/ g_mode g = ModeEA file -> g_mode g' = g_mode g -> g_index g' = g_index g -> main g' = main g.
  Proof. intros [H|H] Hm Hi; unfold Driver.main; rewrite Hm, H, Hi; reflexivity. Qed.
End Api.

(** ** The hypotheses can be met *)
Section Case.
  Definition t_a : list N := Eval vm_compute in u "A"%string.
  Definition t_b : list N := Eval vm_compute in u "B"%string.
  Definition t_c : list N := Eval vm_compute in u "C"%string.
  Definition t_root : list N := Eval vm_compute in u "/w"%string.
  Definition t_src : list N := Eval vm_compute in u "/w/src"%string.
  Definition t_bin : list N := Eval vm_compute in u "/w/a.epf"%string.
  Definition t_tmp : list N := Eval vm_compute in u "/w/tmp"%string.
  Definition p_on : jdict := [(w_src, JStr t_src); (w_bin, JStr t_bin); (w_temp, JNull)].
  Definition p_off : jdict := [(w_disable, JBool true); (w_src, JStr t_src); (w_bin, JStr t_bin)].
  Definition products0 : jdict := [(t_a, JDict p_on); (t_b, JDict p_off); (t_c, JDict p_on)].

  Example some_products_build : to_do asks_build products0
    [mkcall t_bin t_src None [] (JDict [(w_product, JStr t_a)]); mkcall t_bin t_src None [] (JDict [(w_product, JStr t_c)])].
  Proof.
    assert (Hon : ~ off p_on) by (intros (v & H & _); discriminate H).
    assert (Ha : forall nm, asks_build nm p_on (mkcall t_bin t_src None [] (JDict [(w_product, JStr nm)]))).
    { intros nm. repeat split; [right; reflexivity|exists None; split; [left; reflexivity|reflexivity]|].
      exists [], [(w_product, JStr nm)]. split; [right; split; reflexivity|]. split; [reflexivity|]. split; [reflexivity|].
      intros k Hk. cbn [dget]. destruct (str_eqb k w_product) eqn:E; [apply str_eqb_spec in E; congruence|reflexivity]. }
    apply td_on; [exact Hon|apply Ha|]. apply td_off; [exists (JBool true); split; reflexivity|]. apply td_on; [exact Hon|apply Ha|]. apply td_nil.
  Qed.
  Example a_bad_product : unbuildable (JDict [(w_src, JStr t_src); (w_bin, JStr t_bin); (w_options, JNull)]).
  Proof.
    right. eexists. split; [reflexivity|]. split; [intros (v & H & _); discriminate H|]. right. right. exists JNull. split; [reflexivity|discriminate].
  Qed.

  (** a stage that writes one file into its folder *)
  Definition put (b : path) (x : list N) : act := fun w => (fun f => if list_eq_dec (list_eq_dec N.eq_dec) f (locate t_root b ++ [t_a]) then Some x else w f, Ok tt).
  Lemma put_respects b x : respects (put b x).
  Proof.
    intros w1 w2 w1' w2' r1 r2 H E1 E2. unfold put in *. injection E1 as <- <-. injection E2 as <- <-. split; [reflexivity|].
    intros f. destruct (list_eq_dec _ f _); [reflexivity|apply H].
  Qed.
  Lemma put_touches b x : touches_only (within (locate t_root b)) (put b x).
  Proof.
    intros w w' r f E Hf. unfold put in E. injection E as <- <-. cbn. destruct (list_eq_dec _ f _) as [->|_]; [|reflexivity].
    exfalso. apply Hf. exists [t_a]. split; [discriminate|reflexivity].
  Qed.
  Definition c0 : call := mkcall t_bin t_src (Some t_tmp) [] JNull.
  Definition stale : disk := fun f => if list_eq_dec (list_eq_dec N.eq_dec) f (locate t_root t_src ++ [t_b]) then Some [1%N] else None.
  Definition clean : disk := fun _ => None.
  Definition extract0 := extract t_root (fun _ _ => None) (fun _ => t_tmp) (fun a b => put b [1%N]) (fun a b => put b [2%N])
                           (fun a b _ => put b [3%N]) (fun a b _ _ => put b [4%N]).
  (** a stale file in the folder of sources is gone, and the new one is there *)
  Example no_stale_case w1 w2 r1 r2 : extract0 c0 None stale = (w1, r1) -> extract0 c0 None clean = (w2, r2) -> r1 = r2 /\ same_disk w1 w2.
  Proof.
    apply C87_no_stale_files; try (intros; apply put_respects); try (intros; reflexivity); try discriminate.
    - left. reflexivity.
    - intros t E (r & Hr & H). injection E as <-. vm_compute in H. discriminate H.
    - intros f Hf _. unfold stale. destruct (list_eq_dec _ f _) as [->|_]; [|reflexivity].
      exfalso. apply Hf. exists [t_b]. split; [discriminate|reflexivity].
    - intros t E. injection E as <-. split; reflexivity.
  Qed.
  Example no_stale_files_differ : ~ same_disk stale clean.
  Proof. intros H. specialize (H (locate t_root t_src ++ [t_b])). vm_compute in H. discriminate H. Qed.
  Example new_file_there : fst (extract0 c0 None stale) (locate t_root t_src ++ [t_a]) = Some [4%N]
    /\ fst (extract0 c0 None stale) (locate t_root t_src ++ [t_b]) = None.
  Proof. split; vm_compute; reflexivity. Qed.
  (** a build whose compression fails *)
  Example keeps_case c n w w' r f :
    build t_root (fun _ _ => None) (fun _ => t_tmp) (fun a b _ _ => put b [1%N]) (fun a b _ _ => put b [2%N])
      (fun a b w => (w, Err GenericException)) (fun a b => put b []) (fun p => p) c n w = (w', r) ->
    ~ within (locate t_root match a_temp c with Some t => t | None => t_tmp end) f -> w' f = w f.
  Proof.
    apply C88_failed_build_keeps_output; intros; try apply put_touches.
    - intros v v' s g E _. injection E as <- _. reflexivity.
    - right. right. intros a b v. exists v, GenericException. reflexivity.
  Qed.
End Case.

Print Assumptions C86_build_all.
Print Assumptions C86_extract_all.
Print Assumptions C86_update_index_all.
Print Assumptions C86_one_product_built.
Print Assumptions C86_one_product_extracted.
Print Assumptions C86_missing_product.
Print Assumptions C86_bad_product.
Print Assumptions C87_no_stale_files.
Print Assumptions C87_stages.
Print Assumptions C87_bad_index.
Print Assumptions C87_empty_index_refuted.
Print Assumptions C87_sources_lost_refuted.
Print Assumptions C88_only_output.
Print Assumptions C88_failed_build_keeps_output.
Print Assumptions C88_stages.
Print Assumptions C88_own_temp_removed.
Print Assumptions C88_empty_temp_refuted.
Print Assumptions C89_options.
Print Assumptions C89_command.
Print Assumptions C89_processes_refuted.
Print Assumptions C89_products_options_refuted.
