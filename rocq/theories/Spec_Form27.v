(** Vocabulary for the elements of ordinary forms (versions 26 and 27). *)
From Coq Require Import String.
From Verif Require Import PyBase PyInt Brace Header CalcOffset Spec_Misc Pipeline MetaObj FormElem Spec_FormElem Form27.
Set Implicit Arguments.
Open Scope list_scope.
Open Scope N_scope.

(** ** Words *)
Definition panel_id : list N := Eval vm_compute in u "09ccdc77-ea1a-4a6d-ab1c-3435eada2433"%string.
Definition kept_apart : list N := Eval vm_compute in u "Дочерние элементы отдельно"%string.
Definition kept_in_file : list N := Eval vm_compute in u "в отдельном файле"%string.
Definition pages_word : list N := Eval vm_compute in u "-pages-"%string.
Definition panel_word : list N := Eval vm_compute in u "Panel"%string.
(** the types of elements that have nothing inside *)
Definition plain_types : list (list N * list N) := Eval vm_compute in
  [(u "381ed624-9217-4e63-85db-c4c3cb87daae", u "Field"); (u "35af3d93-d7c7-4a2e-a8eb-bac87a1a3f26", u "CheckBox"); (u "782e569a-79a7-4a4f-a936-b48d013936ec", u "RadioBtn");
   (u "64483e7f-3833-48e2-8c75-2c31aac49f6e", u "SelectField"); (u "e69bf21d-97b2-4f37-86db-675aea9ec2cb", u "CommandPanel"); (u "6ff79819-710e-4145-97cd-1618da79e3e2", u "Button");
   (u "151ef23e-6bb2-4681-83d0-35bc2217230c", u "Image"); (u "90db814a-c75f-4b54-bc96-df62e554d67d", u "Group"); (u "ea83fe3a-ac3c-4cce-8045-3dddf35b28b1", u "Table");
   (u "236a17b3-7f44-46d9-a907-75f9cdc61ab5", u "TableField"); (u "0fc7e20d-f241-460c-bdf4-5ad88e5474a5", u "Label");
   (u "19f8b798-314e-4b4e-8121-905b2a7a03f5", u "ListField"); (u "36e52348-5d60-4770-8e89-a16ed50a2006", u "Separator"); (u "d92a805c-98ae-4750-9158-d9ce7cec2f20", u "FieldHtml");
   (u "b1db1f86-abbb-4cf0-8852-fe6ae21650c2", u "Indicator"); (u "e3c063d8-ef92-41be-9c89-b70290b5368b", u "CalendarBox"); (u "6c06cd5d-8481-4b6f-a90a-7a97a8bb8bef", u "TrackBar");
   (u "14c4a229-bfc3-42fe-9ce1-2da049fd0109", u "TextDocumentField"); (u "42248403-7748-49da-b782-e4438fd7bff3", u "GraphicalSchemaField"); (u "ad37194e-555e-4305-b718-5dca84baf145", u "GeographicalSchemaField");
   (u "a8b97779-1a4b-4059-b09c-807f86d2a461", u "Chart"); (u "e5fdc112-5c84-4a16-9728-72b85692b6e2", u "GanttChart"); (u "a26da99e-184a-4823-b0d6-62816d38dc4e", u "PivotChart");
   (u "984981b1-622d-4ebc-94f7-885f0cdfb59a", u "Dendrogram")]%string.

(** ** Pages *)
(** The pages of a panel: what stands before them, their version, their names and descriptions, three values, the
    records of the pages, what stands after them *)
Record ppages := mkpages { pg_front : list val; pg_ver : val; pg_list : list (list N * list val); pg_gap : list val; pg_info : list val; pg_back : list val }.
Definition pg_names (p : ppages) : list (list N) := map fst (pg_list p).
(** as they stand in a form *)
Definition pages_raw (p : ppages) : list val :=
  pg_front p ++ VList (pg_ver p :: number (length (pg_list p)) :: map (fun x => VList (snd x)) (pg_list p)) :: pg_gap p ++ number (length (pg_info p)) :: pg_info p ++ pg_back p.
(** without what is kept in the file of elements *)
Definition pages_bare (p : ppages) : list val := pg_front p ++ VList [pg_ver p] :: pg_gap p ++ VStr kept_in_file :: pg_back p.
(** the name of a page is its seventh value; every page but the first has four records *)
Definition page_is (x : list N * list val) : Prop := exists a0 a1 a2 a3 a4 a5 r, snd x = a0 :: a1 :: a2 :: a3 :: a4 :: a5 :: quoted (fst x) :: r.
(** the place of the pages depends on the numbers before them, not on them *)
Record pages_fit (p : ppages) : Prop := {
  po_place : exists x data, pg_front p = x :: data /\ laid_out [(2, 1); (1, 1); (1, 1); (1, 1); (1, 1); (1, 1); (4, 0)]%Z (data ++ [VStr []]);
  po_gap : length (pg_gap p) = 3%nat
}.
Record pages_ok (p : ppages) : Prop := {
  po_fit : pages_fit p;
  po_names : Forall page_is (pg_list p);
  po_info : (4 * (length (pg_list p) - 1) <= length (pg_info p))%nat;
  po_none : pg_list p = [] -> pg_info p = []
}.
(** the records of each page *)
Fixpoint fours (n : nat) (l : list val) : list (list val) := match n with O => [] | S n => firstn 4 l :: fours n (skipn 4 l) end.
Definition infos (p : ppages) : list (list val) :=
  match pg_list p with [] => [] | _ :: r => let k := (length (pg_info p) - 4 * length r)%nat in firstn k (pg_info p) :: fours (length r) (skipn k (pg_info p)) end.

(** ** Elements *)
(** An element: type, id, name, page, then its other values: before its geometry, its geometry before and after the
    page, what is around its name, the last value.  A panel: the values around the pages, the elements in it, what
    stands after them *)
Inductive pelem :=
| Plain (ty id name : list N) (page : option (list N)) (mid geo geo' : list val) (pt x : val) (nm : list val) (last : val)
| Panel (id name : list N) (page : option (list N)) (h : val) (pages : ppages) (more mid geo geo' : list val) (pt x : val) (nm : list val) (kids : list pelem) (after : list val).
Definition pl_name (e : pelem) : list N := match e with Plain _ _ n _ _ _ _ _ _ _ _ => n | Panel _ n _ _ _ _ _ _ _ _ _ _ _ _ => n end.
Definition pl_id (e : pelem) : list N := match e with Plain _ i _ _ _ _ _ _ _ _ _ => i | Panel i _ _ _ _ _ _ _ _ _ _ _ _ _ => i end.
Definition pl_page (e : pelem) : option (list N) := match e with Plain _ _ _ p _ _ _ _ _ _ _ => p | Panel _ _ p _ _ _ _ _ _ _ _ _ _ _ => p end.
Definition pl_text (e : pelem) : val := match e with Plain _ _ _ _ _ _ _ pt _ _ _ => pt | Panel _ _ _ _ _ _ _ _ _ pt _ _ _ _ => pt end.
Definition pl_geo (e : pelem) : list val := match e with Plain _ _ _ _ _ _ g _ _ _ _ => g | Panel _ _ _ _ _ _ _ _ g _ _ _ _ _ => g end.
(** as it stands in a form *)
Fixpoint praw (e : pelem) : val :=
  match e with
  | Plain ty id name _ mid geo geo' pt x nm last => VList (VStr ty :: VStr id :: mid ++ [VList (geo ++ pt :: geo'); VList (x :: quoted name :: nm); last])
  | Panel id name _ h pages more mid geo geo' pt x nm kids after =>
    VList (VStr panel_id :: VStr id :: VList (h :: VList (pages_raw pages) :: more) :: mid ++
           [VList (geo ++ pt :: geo'); VList (x :: quoted name :: nm); VList (number (length kids) :: map praw kids ++ after)])
  end.
(** as it is kept in the sources *)
Definition kids_bare (kids : list pelem) (after : list val) : list val := match kids with [] => number 0 | _ => VStr kept_apart end :: after.
Definition pbare (e : pelem) : val :=
  match e with
  | Plain _ _ _ _ _ _ _ _ _ _ _ => praw e
  | Panel id name _ h pages more mid geo geo' pt x nm kids after =>
    VList (VStr panel_id :: VStr id :: VList (h :: VList (pages_bare pages) :: more) :: mid ++ [VList (geo ++ pt :: geo'); VList (x :: quoted name :: nm); VList (kids_bare kids after)])
  end.
(** its place in 'tree' *)
Fixpoint pitem (e : pelem) : titem :=
  match e with
  | Plain ty _ name page _ _ _ _ _ _ _ => TItem name (match dget ty plain_types with Some t => t | None => [] end) page None
  | Panel _ name page _ _ _ _ _ _ _ _ _ kids _ => TItem name panel_word page (Some (map pitem kids))
  end.

(** ** Paths *)
Definition sub (path s : list N) : list N := match path, s with [], _ => s | _, [] => path | _, _ => path ++ [47] ++ s end.
Definition page_path (path : list N) (page : option (list N)) : list N := match page with Some p => sub path p | None => path end.
(** everything in a panel to be renamed is kept under its first name *)
Definition inside_of (key : list N) : list N := str_replace s_includr s_include key.
(** What is kept for a panel at [path]: its pages, their names, its elements and what is in them *)
Inductive kept := KPage (name : list N) (raw : list val) | KPages (names : list (list N)) | KElem (path : list N) (e : pelem).
Definition kept_pages (path : list N) (p : ppages) : list (list N * kept) :=
  map (fun x => (sub path (fst x), KPage (fst x) (snd x))) (pg_list p) ++ [(sub path pages_word, KPages (pg_names p))].
Fixpoint kept_elem (path : list N) (e : pelem) : list (list N * kept) :=
  let key := sub (page_path path (pl_page e)) (pl_name e) in
  (key, KElem (page_path path (pl_page e)) e) ::
  match e with
  | Plain _ _ _ _ _ _ _ _ _ _ _ => []
  | Panel _ _ _ _ pages _ _ _ _ _ _ _ kids _ => kept_pages (inside_of key) pages ++ flat_map (kept_elem (inside_of key)) kids
  end.
Definition kept_form (p : ppages) (es : list pelem) : list (list N * kept) := kept_pages [] p ++ flat_map (kept_elem []) es.
(** every panel: its path and its pages *)
Fixpoint panels (path : list N) (e : pelem) : list (list N * ppages) :=
  match e with
  | Plain _ _ _ _ _ _ _ _ _ _ _ => []
  | Panel _ name page _ pages _ _ _ _ _ _ _ kids _ => let inner := inside_of (sub (page_path path page) name) in (inner, pages) :: flat_map (panels inner) kids
  end.

(** ** Elements that come back *)
(** the page of an element: none, a number from the first one, or a negative number from the last one *)
Inductive on_page (names : list (list N)) : val -> option (list N) -> Prop :=
| op_empty : on_page names (VStr []) None
| op_nopages s : names = [] -> on_page names (VStr s) None
| op_first i n : nth_error names i = Some n -> on_page names (number i) (Some n)
| op_last i n : nth_error (rev names) i = Some n -> on_page names (VStr (str_of_int (-1 - Z.of_nat i))) (Some n).
(** An element that can be read: it is on its page, its pages have names and records.  An element that can be built
    ([read] = false) need not *)
Inductive pelem_ok (read : bool) : list (list N) -> pelem -> Prop :=
| pe_plain names ty id name page mid geo geo' pt x nm last :
    In ty (map fst plain_types) -> name <> [] -> (read = true -> length geo' = 4%nat /\ on_page names pt page) -> pelem_ok read names (Plain ty id name page mid geo geo' pt x nm last)
| pe_panel names id name page h pages more mid geo geo' pt x nm kids after :
    name <> [] -> (read = true -> length geo' = 4%nat /\ on_page names pt page /\ pages_ok pages) -> pages_fit pages -> (kids = [] \/ after = []) ->
    Forall (pelem_ok read (pg_names pages)) kids -> pelem_ok read names (Panel id name page h pages more mid geo geo' pt x nm kids after).

(** ** Forms *)
(** a property: its id is the first value of its first value, its name is at [at_] *)
Definition prop27_is (at_ : nat) (p : list N * list N) (v : val) : Prop :=
  exists l i, v = VList (VList (VStr (fst p) :: i) :: l) /\ nth_error (VList (VStr (fst p) :: i) :: l) at_ = Some (quoted (snd p)).
(** a link of an element to a property *)
Definition source_is (s : list N * list N) (v : val) : Prop := exists x i r r', v = VList (VStr (fst s) :: VList (x :: VList (VStr (snd s) :: i) :: r) :: r').
(** an element with this id is linked to the property with this name *)
Definition linked (props links : list (list N * list N)) (id n : list N) : Prop := exists p, In (id, p) links /\ In (p, n) props.
(** A form: its properties (id, name), its links (element, property), its pages and elements; [at_] is the place of the
    name of a property *)
Record form27_is (at_ : nat) (raw : list val) (props links : list (list N * list N)) (pages : ppages) (es : list pelem) (after : list val) : Prop := {
  f27_raw : exists v0 a0 a1 h more prest r1 b0 b1 vs vmore src r2 rest,
    raw = v0 :: VList (a0 :: a1 :: VList (VStr panel_id :: VList (h :: VList (pages_raw pages) :: more) :: VList (number (length es) :: map praw es ++ after) :: prest) :: r1) ::
          VList (b0 :: b1 :: VList (number (length vs) :: vs ++ vmore) :: src :: r2) :: rest /\
    Forall2 (prop27_is at_) props vs /\
    (props = [] /\ links = [] \/ exists ls lmore, src = VList (number (length ls) :: ls ++ lmore) /\ Forall2 source_is links ls);
  f27_ids : Forall (fun p => fst p <> []) props;
  f27_pages : pages_ok pages;
  f27_elems : Forall (pelem_ok true (pg_names pages)) es;
  f27_after : es = [] \/ after = [];
  f27_once : NoDup (map fst (kept_form pages es))
}.

(** ** Sources *)
(** The file of elements holds what is kept for the form.  The records of the pages of a panel may be spread over them
    in any way; an element may name any property of the form *)
Definition info_of (data : list (list N * entry27)) (key : list N) : list val := match dget key data with Some (EPage _ _ (Some i)) => i | _ => [] end.
Record described27 (fe : felems27) (raw' raw : list val) (pages : ppages) (es : list pelem) (after : list val) : Prop := {
  d27_tree : f7_tree fe = map pitem es;
  d27_raw : exists v0 a0 a1 h more prest r1 b0 b1 sec sec' r2 rest,
    raw' = v0 :: VList (a0 :: a1 :: VList (VStr panel_id :: VList (h :: VList (pages_bare pages) :: more) :: VList (kids_bare es after) :: prest) :: r1) ::
           VList (b0 :: b1 :: VList sec' :: r2) :: rest /\
    raw = v0 :: VList (a0 :: a1 :: VList (VStr panel_id :: VList (h :: VList (pages_raw pages) :: more) :: VList (number (length es) :: map praw es ++ after) :: prest) :: r1) ::
          VList (b0 :: b1 :: VList sec :: r2) :: rest /\
    ((exists ps vmore, sec' = VStr kept_apart :: vmore /\ match f7_props fe with Some l => l | None => [] end = ps /\ sec = number (length ps) :: map p7_raw ps ++ vmore) \/
     exists c vmore, sec' = c :: vmore /\ c <> VStr kept_apart /\ sec = sec');
  d27_kept : forall key k, In (key, k) (kept_form pages es) ->
    match k with
    | KPage _ r => exists f i, dget key (f7_data fe) = Some (EPage f (VList r) i)
    | KPages names => dget key (f7_data fe) = Some (EPages names)
    | KElem _ e => exists id page prop, dget key (f7_data fe) = Some (EElem id page (pbare e) prop) /\
                   match prop with Some n => n = [] \/ exists p, In p (match f7_props fe with Some l => l | None => [] end) /\ p7_name p = n | None => True end
    end;
  d27_info : forall path p, In (path, p) (([], pages) :: flat_map (panels []) es) -> concat (map (fun n => info_of (f7_data fe) (sub path n)) (pg_names p)) = pg_info p;
  d27_fit : pages_fit pages /\ Forall (pelem_ok false (pg_names pages)) es /\ (es = [] \/ after = []);
  d27_ids : forall p, In p (match f7_props fe with Some l => l | None => [] end) -> exists s, p7_id p = VStr s /\ s <> []
}.
