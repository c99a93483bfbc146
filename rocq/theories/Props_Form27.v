(** C70-C71: the elements of ordinary forms.  Model: Form27.v; specification: Spec_Form27.v. *)
From Coq Require Import String Lia.
From Verif Require Import PyBase PyInt Brace Header CalcOffset Spec_Misc Container Payload MetaObj FormElem Spec_FormElem FormElemCheck UpdateDictProofs Form27 Spec_Form27 Form27Main.
Open Scope list_scope.
Open Scope N_scope.

(** Extraction writes the tree of the elements, an entry for every page and every element at any depth under its path, with
    its own values and the property it is linked to, and the records of every page; a build from these sources gives the
    form back exactly. *)
Theorem C70_ordinary_form_restored : forall at_ raw props links pages es after, form27_is at_ raw props links pages es after ->
  exists raw' fe, elems27_decode at_ raw = Ok (raw', fe) /\ f7_tree fe = map pitem es /\ map fst (f7_data fe) = map fst (kept_form pages es) /\
    (forall key k, In (key, k) (kept_form pages es) -> dget key (f7_data fe) <> None /\
       match k with
       | KPage _ r => exists f i, dget key (f7_data fe) = Some (EPage f (VList r) (Some i))
       | KPages names => dget key (f7_data fe) = Some (EPages names)
       | KElem path e => exists prop, dget key (f7_data fe) = Some (EElem (pl_id e) path (pbare e) prop) /\
           (NoDup (map fst props) -> NoDup (map fst links) -> forall n, prop = Some n <-> linked props links (pl_id e) n)
       end) /\
    (forall path p, In (path, p) (([], pages) :: flat_map (panels []) es) -> map (fun n => info_of (f7_data fe) (sub path n)) (pg_names p) = infos p /\ concat (infos p) = pg_info p) /\
    map (fun p => (p7_id p, p7_name p)) (match f7_props fe with Some l => l | None => [] end) = map (fun p : list N * list N => (VStr (fst p), snd p)) props /\
    elems27_encode fe raw' = Ok raw.
Proof. exact through27. Qed.
Print Assumptions C70_ordinary_form_restored.

(** A build from edited sources makes the form they describe: the pages and the elements of the tree, counted, each with
    the values of its entry, and the properties. *)
Theorem C71_ordinary_form_built : forall fe raw' raw pages es after, described27 fe raw' raw pages es after -> elems27_encode fe raw' = Ok raw.
Proof. exact build27. Qed.
Print Assumptions C71_ordinary_form_built.

(** ** A form with two pages, a field linked to a property, and a panel to be renamed with a page and a button in it *)
Definition t_ (s : string) : val := VStr (u s).
Definition z_ : val := number 0.
Definition n_main : list N := Eval vm_compute in u "Основная"%string.
Definition n_more : list N := Eval vm_compute in u "Дополнительно"%string.
Definition n_one : list N := Eval vm_compute in u "Страница1"%string.
Definition n_field27 : list N := Eval vm_compute in u "Поле"%string.
Definition n_pan : list N := Eval vm_compute in u "includr_Панель"%string.
Definition n_but27 : list N := Eval vm_compute in u "Кнопка"%string.
Definition n_sum : list N := Eval vm_compute in u "Сумма"%string.
Definition u_fld : list N := Eval vm_compute in u "381ed624-9217-4e63-85db-c4c3cb87daae"%string.
Definition u_btn : list N := Eval vm_compute in u "6ff79819-710e-4145-97cd-1618da79e3e2"%string.
Definition ex_page (n : list N) : list N * list val := (n, [t_ "3"; z_; z_; z_; z_; z_; quoted n; z_]).
Definition ex_front : list val := [t_ "26"; z_; number 1; VList [z_; number 2]; z_; z_; z_; z_; z_; t_ "a"; t_ "b"; t_ "c"].
Definition ex_top : ppages := mkpages ex_front (t_ "1") [ex_page n_main; ex_page n_more] [t_ "x"; t_ "y"; t_ "z"] (map number [10; 11; 12; 13; 14; 20; 21; 22; 23]%nat) [t_ "end"].
Definition ex_in : ppages := mkpages ex_front (t_ "1") [ex_page n_one] [t_ "x"; t_ "y"; t_ "z"] (map number [1; 2; 3; 4]%nat) [].
Definition geo4 : list val := [z_; z_; z_; z_].
Definition ex_fld : pelem := Plain u_fld [50] n_field27 (Some n_main) [z_] [t_ "g"] geo4 (number 0) (t_ "14") [z_] (VList [z_]).
Definition ex_btn : pelem := Plain u_btn [52] n_but27 (Some n_one) [] [] geo4 (VStr (str_of_int (-1))) (t_ "14") [] (VList [z_]).
Definition ex_pan : pelem := Panel [51] n_pan (Some n_more) (t_ "1") ex_in [z_] [z_] [t_ "g"] geo4 (number 1) (t_ "14") [z_] [ex_btn] [].
Definition ex_raw27 : list val :=
  [t_ "27"; VList [t_ "16"; z_; VList (VStr panel_id :: VList [t_ "h"; VList (pages_raw ex_top); z_] :: VList (number 2 :: map praw [ex_fld; ex_pan] ++ []) :: [z_]); z_];
   VList [z_; z_; VList (number 1 :: [VList [VList [t_ "7"; z_]; z_; z_; z_; quoted n_sum]] ++ []); VList (number 1 :: [VList [t_ "2"; VList [t_ "1"; VList [t_ "7"]]]] ++ []); z_]; z_].
Example ex_form27 : form27_is 4 ex_raw27 [([55], n_sum)] [([50], [55])] ex_top [ex_fld; ex_pan] [].
Proof.
  assert (Fit : forall p, pg_front p = ex_front -> length (pg_gap p) = 3%nat -> pages_fit p).
  { intros p E L. split; [|exact L]. eexists _, _. split; [exact E|]. apply lo_ok. vm_compute. reflexivity. }
  assert (Op : forall n, page_is (ex_page n)) by (intros n; do 7 eexists; reflexivity).
  assert (O1 : pages_ok ex_top).
  { split; [apply Fit; reflexivity|repeat constructor; apply Op| |discriminate]. cbn. lia. }
  assert (O2 : pages_ok ex_in).
  { split; [apply Fit; reflexivity|repeat constructor; apply Op| |discriminate]. cbn. lia. }
  constructor.
  - do 9 eexists. exists [VList [VList [t_ "7"; z_]; z_; z_; z_; quoted n_sum]], []. do 3 eexists. split; [reflexivity|]. split.
    + constructor; [|constructor]. do 2 eexists. split; reflexivity.
    + right. exists [VList [t_ "2"; VList [t_ "1"; VList [t_ "7"]]]], []. split; [reflexivity|]. constructor; [|constructor]. do 4 eexists. reflexivity.
  - constructor; [discriminate|constructor].
  - exact O1.
  - constructor; [|constructor; [|constructor]].
    + apply pe_plain; [left; reflexivity|discriminate|]. intros _. split; [reflexivity|]. apply op_first. reflexivity.
    + apply pe_panel; [discriminate| |apply O2|right; reflexivity|].
      * intros _. split; [reflexivity|]. split; [apply op_first; reflexivity|exact O2].
      * constructor; [|constructor]. apply pe_plain; [do 5 right; left; reflexivity|discriminate|]. intros _. split; [reflexivity|]. apply (@op_last _ 0). reflexivity.
  - right. reflexivity.
  - apply nodup_strs. vm_compute. reflexivity.
Qed.
Example ex_keys27 : map fst (kept_form ex_top [ex_fld; ex_pan]) =
  map u ["Основная"; "Дополнительно"; "-pages-"; "Основная/Поле"; "Дополнительно/includr_Панель"; "Дополнительно/include_Панель/Страница1"; "Дополнительно/include_Панель/-pages-"; "Дополнительно/include_Панель/Страница1/Кнопка"]%string.
Proof. vm_compute. reflexivity. Qed.
(** the sources with the button taken out of the panel and put on the first page: the build makes that form *)
Definition ex_pan0 : pelem := Panel [51] n_pan (Some n_more) (t_ "1") ex_in [z_] [z_] [t_ "g"] geo4 (number 1) (t_ "14") [z_] [] [].
Definition ex_btn0 : pelem := Plain u_btn [52] n_but27 (Some n_main) [] [] geo4 (number 0) (t_ "14") [] (VList [z_]).
Definition ex_fe27 : felems27 :=
  match elems27_decode 4 ex_raw27 with
  | Ok (_, fe) => mkelems27 (f7_props fe) (map pitem [ex_btn0; ex_fld; ex_pan0])
      (dset (u "Дополнительно/includr_Панель"%string) (EElem [51] n_more (pbare ex_pan0) None) (dset (u "Основная/Кнопка"%string) (EElem [52] n_main (praw ex_btn0) (Some n_sum)) (f7_data fe)))
  | Err _ => mkelems27 None [] []
  end.
Definition ex_raw27' : list val := match elems27_decode 4 ex_raw27 with Ok (raw, _) => raw | Err _ => [] end.
Definition ex_new27 : list val :=
  [t_ "27"; VList [t_ "16"; z_; VList (VStr panel_id :: VList [t_ "h"; VList (pages_raw ex_top); z_] :: VList (number 3 :: map praw [ex_btn0; ex_fld; ex_pan0] ++ []) :: [z_]); z_];
   VList [z_; z_; VList (number 1 :: [VList [VList [t_ "7"; z_]; z_; z_; z_; quoted n_sum]] ++ []); VList (number 1 :: [VList [t_ "2"; VList [t_ "1"; VList [t_ "7"]]]] ++ []); z_]; z_].
Example ex_built27 : described27 ex_fe27 ex_raw27' ex_new27 ex_top [ex_btn0; ex_fld; ex_pan0] [].
Proof.
  assert (Fit : forall p, pg_front p = ex_front -> length (pg_gap p) = 3%nat -> pages_fit p).
  { intros p E L. split; [|exact L]. eexists _, _. split; [exact E|]. apply lo_ok. vm_compute. reflexivity. }
  constructor.
  - vm_compute. reflexivity.
  - do 13 eexists. split; [vm_compute; reflexivity|]. split; [vm_compute; reflexivity|]. left. do 2 eexists. split; [vm_compute; reflexivity|]. split; [vm_compute; reflexivity|]. vm_compute. reflexivity.
  - intros key k H. cbv [kept_form kept_pages ex_top pg_list map fst snd app flat_map kept_elem pl_page pl_name ex_btn0 ex_fld ex_pan0 ex_in ex_page] in H.
    repeat (destruct H as [H|H]; [injection H as <- <-; first [do 2 eexists; vm_compute; reflexivity|vm_compute; reflexivity|
      do 3 eexists; split; [vm_compute; reflexivity|]; cbv iota; first [exact Logic.I|right; eexists; split; [left; reflexivity|reflexivity]]]|]). destruct H.
  - intros path p H. cbn [flat_map panels ex_btn0 ex_fld ex_pan0 app In] in H. destruct H as [H|[H|[]]]; injection H as <- <-; vm_compute; reflexivity.
  - split; [apply Fit; reflexivity|]. split; [|right; reflexivity]. constructor; [|constructor; [|constructor; [|constructor]]].
    + apply pe_plain; [do 5 right; left; reflexivity|discriminate|discriminate].
    + apply pe_plain; [left; reflexivity|discriminate|discriminate].
    + apply pe_panel; [discriminate|discriminate|apply Fit; reflexivity|left; reflexivity|constructor].
  - intros p H. cbn in H. destruct H as [<-|[]]. eexists. split; [reflexivity|discriminate].
Qed.

(** ** What fails *)
Definition one_form (pd sec : list val) : list val := [t_ "27"; VList [z_; z_; VList [VStr panel_id; VList [z_; VList pd]; VList sec]]; VList [z_; z_; VList [z_]; VList [z_]]].
(** The form of a file whose elements cannot be read (here: an unknown type of element) is written out without them, and no build accepts these sources:
    whatever form is in them, the pages of its elements are not in the file of elements *)
Theorem C70_unread_form_refuted : exists raw, (exists e, elems27_decode 4 raw = Err e) /\ forall props tree data, dget pages_word data = None -> exists e, elems27_encode (mkelems27 props tree data) raw = Err e.
Proof.
  exists (one_form (pages_raw ex_top) [number 1; praw (Plain (u "00000000-0000-0000-0000-000000000000"%string) [50] n_field27 (Some n_main) [] [] geo4 (number 0) z_ [] z_)]).
  split; [eexists; vm_compute; reflexivity|]. intros props tree data H. apply no_pages. exact H.
Qed.
(** a value after the pages of a panel, or after the elements *)
Theorem C70_value_after_pages_refuted : exists raw raw' fe raw'', elems27_decode 4 raw = Ok (raw', fe) /\ elems27_encode fe raw' = Ok raw'' /\ raw'' <> raw.
Proof.
  exists (one_form (ex_front ++ VList [t_ "1"; number 1; VList (snd (ex_page n_main)); t_ "lost"] :: [z_; z_; z_; z_]) [z_]).
  do 3 eexists. split; [vm_compute; reflexivity|]. split; [vm_compute; reflexivity|]. vm_compute. discriminate.
Qed.
Theorem C70_value_after_elements_refuted : exists raw raw' fe raw'', elems27_decode 4 raw = Ok (raw', fe) /\ elems27_encode fe raw' = Ok raw'' /\ raw'' <> raw.
Proof.
  exists (one_form (ex_front ++ VList [t_ "1"; number 1; VList (snd (ex_page n_main))] :: [z_; z_; z_; z_]) [number 1; praw ex_fld; t_ "moved"]).
  do 3 eexists. split; [vm_compute; reflexivity|]. split; [vm_compute; reflexivity|]. vm_compute. discriminate.
Qed.
(** records without pages are lost *)
Theorem C70_records_without_pages_refuted : exists raw raw' fe raw'', elems27_decode 4 raw = Ok (raw', fe) /\ elems27_encode fe raw' = Ok raw'' /\ raw'' <> raw.
Proof.
  exists (one_form (ex_front ++ VList [t_ "1"; number 0] :: [z_; z_; z_; number 1; t_ "lost"]) [z_]).
  do 3 eexists. split; [vm_compute; reflexivity|]. split; [vm_compute; reflexivity|]. vm_compute. discriminate.
Qed.
(** an element without a name on a page: the sources cannot be built *)
Theorem C70_any_name_refuted : exists raw raw' fe, elems27_decode 4 raw = Ok (raw', fe) /\ elems27_encode fe raw' = Err ExtExc.
Proof.
  exists (one_form (ex_front ++ VList [t_ "1"; number 1; VList (snd (ex_page n_main))] :: [z_; z_; z_; z_]) [number 1; praw (Plain u_fld [50] [] (Some n_main) [] [] geo4 (number 0) z_ [] z_)]).
  do 2 eexists. split; vm_compute; reflexivity.
Qed.
(** two elements of one name on one page: the build makes the second one twice *)
Theorem C70_same_names_refuted : exists raw raw' fe raw'', elems27_decode 4 raw = Ok (raw', fe) /\ elems27_encode fe raw' = Ok raw'' /\ raw'' <> raw.
Proof.
  exists (one_form (ex_front ++ VList [t_ "1"; number 1; VList (snd (ex_page n_main))] :: [z_; z_; z_; z_]) [number 2; praw ex_fld; praw (Plain u_fld [51] n_field27 (Some n_main) [] [] geo4 (number 0) z_ [] z_)]).
  do 3 eexists. split; [vm_compute; reflexivity|]. split; [vm_compute; reflexivity|]. vm_compute. discriminate.
Qed.
