(** Model of the elements of ordinary forms, versions 26 and 27, without the option auto_include:
    /repo/src/v8unpack/MetaDataObject/Form/FormElements27/*.py; FormElements26/*.py differ in the version and in
    the place of the name of a property.
    A form is the list form[0][0]; the functions of the code change it in place, the model returns the changed
    list.  Simplifications: every error is the same (the callers treat all alike); a negative count, an id
    that is not a str, a panel whose second value is a list, and an entry of the sources of another kind than
    its item are errors; in a build, two elements of one key get copies of the stored data (the code gives
    them the same list).  Messages are not modelled. *)
From Coq Require Import String.
From Verif Require Import PyBase PyInt Brace Header CalcOffset JsonText JsonTextProofs JsonObj Container Pipeline FormCode Payload MetaObj FormElem.
Set Implicit Arguments.
Open Scope list_scope.
Open Scope N_scope.

Definition info_mark : list N := Eval vm_compute in u "в отдельном файле"%string.
Definition s_pages : list N := Eval vm_compute in u "-pages-"%string.
Definition n_panel : list N := Eval vm_compute in u "Panel"%string.
Definition u_panel : list N := Eval vm_compute in u "09ccdc77-ea1a-4a6d-ab1c-3435eada2433"%string.
(** FormElement.py 7-32 FormItemTypes *)
Definition types27 : list (list N * list N) := Eval vm_compute in
  [(u "381ed624-9217-4e63-85db-c4c3cb87daae", u "Field"); (u "35af3d93-d7c7-4a2e-a8eb-bac87a1a3f26", u "CheckBox"); (u "782e569a-79a7-4a4f-a936-b48d013936ec", u "RadioBtn");
   (u "64483e7f-3833-48e2-8c75-2c31aac49f6e", u "SelectField"); (u "e69bf21d-97b2-4f37-86db-675aea9ec2cb", u "CommandPanel"); (u "6ff79819-710e-4145-97cd-1618da79e3e2", u "Button");
   (u "151ef23e-6bb2-4681-83d0-35bc2217230c", u "Image"); (u "90db814a-c75f-4b54-bc96-df62e554d67d", u "Group"); (u "ea83fe3a-ac3c-4cce-8045-3dddf35b28b1", u "Table");
   (u "236a17b3-7f44-46d9-a907-75f9cdc61ab5", u "TableField"); (u "09ccdc77-ea1a-4a6d-ab1c-3435eada2433", u "Panel"); (u "0fc7e20d-f241-460c-bdf4-5ad88e5474a5", u "Label");
   (u "19f8b798-314e-4b4e-8121-905b2a7a03f5", u "ListField"); (u "36e52348-5d60-4770-8e89-a16ed50a2006", u "Separator"); (u "d92a805c-98ae-4750-9158-d9ce7cec2f20", u "FieldHtml");
   (u "b1db1f86-abbb-4cf0-8852-fe6ae21650c2", u "Indicator"); (u "e3c063d8-ef92-41be-9c89-b70290b5368b", u "CalendarBox"); (u "6c06cd5d-8481-4b6f-a90a-7a97a8bb8bef", u "TrackBar");
   (u "14c4a229-bfc3-42fe-9ce1-2da049fd0109", u "TextDocumentField"); (u "42248403-7748-49da-b782-e4438fd7bff3", u "GraphicalSchemaField"); (u "ad37194e-555e-4305-b718-5dca84baf145", u "GeographicalSchemaField");
   (u "a8b97779-1a4b-4059-b09c-807f86d2a461", u "Chart"); (u "e5fdc112-5c84-4a16-9728-72b85692b6e2", u "GanttChart"); (u "a26da99e-184a-4823-b0d6-62816d38dc4e", u "PivotChart");
   (u "984981b1-622d-4ebc-94f7-885f0cdfb59a", u "Dendrogram")]%string.

(** ** Sources *)
(** entries of 'data': Panel.py 55-62 (elements), 268-274 with 243-245 (pages), 276 (the names of the pages) *)
Inductive entry27 :=
| EPage (format raw : val) (info : option (list val))
| EPages (names : list (list N))
| EElem (id page : list N) (raw : val) (prop : option (list N)).
(** items of 'tree': Panel.py 43, 51, 93; panels have 'child' *)
Inductive titem := TItem (name ty : list N) (page : option (list N)) (child : option (list titem)).
(** FormElement.py 144-150 *)
Record prop27 := mkprop27 { p7_name : list N; p7_id : val; p7_raw : val }.
Record felems27 := mkelems27 { f7_props : option (list prop27); f7_tree : list titem; f7_data : list (list N * entry27) }.

(** ** Lists *)
(** l[a:b] and del l[a:b] *)
Definition clampi (n i : Z) : Z := (let j := if i <? 0 then i + n else i in Z.max 0 (Z.min n j))%Z.
Definition pyslice (l : list val) (a b : Z) : list val := let n := zlen l in firstn (Z.to_nat (clampi n b - clampi n a)) (skipn (Z.to_nat (clampi n a)) l).
Definition pydel (l : list val) (a b : Z) : list val := let n := zlen l in firstn (Z.to_nat (clampi n a)) l ++ skipn (Z.to_nat (Z.max (clampi n a) (clampi n b))) l.
(** Panel.py 25-33 calc_id: the parts that are not empty, with slashes *)
Definition calc_id (parts : list (list N)) : list N := join [47] (filter (fun p => negb (length p =? 0)%nat) parts).
Definition opt_str (o : option (list N)) : list N := match o with Some s => s | None => [] end.
(** Panel.py 85: the path of what is inside a panel *)
Definition inner_path (key : list N) : list N := str_replace s_includr s_include key.
(** Panel.py 342-347 *)
Definition pages_off (rd : list val) : res Z := calc_offset [(2, 1); (1, 1); (1, 1); (1, 1); (1, 1); (1, 1); (4, 0)]%Z rd.

(** ** Extraction *)
Notation dict27 := (list (list N * entry27)).
Definition dupdate (d d2 : dict27) : dict27 := fold_left (fun d (e : list N * entry27) => dset (fst e) (snd e) d) d2 d.
(** Panel.py 254-274: the pages of a panel *)
Fixpoint dec_page_list (path : list N) (n : nat) (l : list val) (d : dict27) : res (list (list N) * dict27) :=
  match n with
  | O => Ok ([], d)
  | S n => match l with
           | [] => Err IndexError
           | rp :: r =>
             f <- vget rp 0 ;; s <- vget rp 6 ;; s <- vstr s ;; let name := str_decode s in
             ' (names, d) <- dec_page_list path n r (dset (calc_id [path; name]) (EPage f rp None) d) ;; Ok (name :: names, d)
           end
  end.
(** 225-248 decode_info: the records of the pages, four for each, what is too much goes to the first *)
Fixpoint dec_infos (path : list N) (rd : list val) (at_ extra : Z) (i : nat) (names : list (list N)) (d : dict27) : res dict27 :=
  match names with
  | [] => Ok d
  | name :: r =>
    let a := (match i with O => at_ + 1 | _ => Z.of_nat i * 4 + 1 + at_ + extra end)%Z in
    let b := (match i with O => a + 4 + extra | _ => a + 4 end)%Z in
    match dget (calc_id [path; name]) d with
    | Some (EPage f raw _) => dec_infos path rd at_ extra (S i) r (dset (calc_id [path; name]) (EPage f raw (Some (pyslice rd a b))) d)
    | _ => Err TypeError
    end
  end.
(** 195-284 decode_pages *)
Definition dec_pages (path : list N) (rd : list val) : res (list val * list (list N) * dict27) :=
  off <- pages_off rd ;; p <- py_nth rd off ;; pl <- vlist p ;; _ <- vnth 0 pl ;; c <- vnth 1 pl ;; n <- int_of_val c ;;
  if (n <? 0)%Z then Err ValueError
  else
    ' (names, d) <- dec_page_list path (Z.to_nat n) (skipn 2 pl) [] ;;
    rd <- zput off (VList (pydel pl 1 (1 + 2 + n))) rd ;;
    let d := dset (calc_id [path; s_pages]) (EPages names) d in
    let at_ := (off + 4)%Z in
    c <- py_nth rd at_ ;; k <- int_of_val c ;;
    d <- dec_infos path rd at_ (k - n * 4)%Z 0 names d ;;
    rd <- zput at_ (VStr info_mark) (pydel rd (at_ + 1) (at_ + 1 + k)) ;;
    Ok (rd, names, d).
(** 36-42 get_page_name: the name of the page of an element *)
Definition page_name (pages : list (list N)) (page : val) : res (option (list N)) :=
  if truthy page && negb (length pages =? 0)%nat
  then s <- vstr page ;; i <- int_of_str s ;;
       if str_eqb s (str_of_int i)
       then let j := (if i <? 0 then i + zlen pages else i)%Z in
            if (j <? 0)%Z then Err IndexError else match nth_error pages (Z.to_nat j) with Some name => Ok (Some name) | None => Err IndexError end
       else Err ExtExc
  else Ok None.
Definition vneg_get (v : val) (k : nat) : res val := l <- vlist v ;; vneg k l.

Section Dec.
Variable pidx : list (list N * list N).                  (* props_index: id of an element -> name of its property *)
Section Go.
Variable one : val -> dict27 -> res (titem * dict27).
Fixpoint dec_run (n : nat) (l : list val) (d : dict27) : res (list titem * dict27) :=
  match n with
  | O => Ok ([], d)
  | S n => match l with [] => Err IndexError | v :: r => ' (x, d) <- one v d ;; ' (xs, d) <- dec_run n r d ;; Ok (x :: xs, d) end
  end.
(** 101-143 decode_elements; [d]: what the panel has so far *)
Definition dec_section (sec : list val) (d : dict27) : res (list val * list titem * dict27) :=
  c <- vnth 0 sec ;; n <- int_of_val c ;;
  if (n =? 0)%Z then Ok (sec, [], d)
  else if (n <? 0)%Z then Err ValueError
  else ' (xs, d) <- dec_run (Z.to_nat n) (skipn 1 sec) d ;; Ok (VStr kids_mark :: skipn (S (Z.to_nat n)) sec, xs, d).
End Go.
(** FormElement.py 62-87, Panel.py 35-75, 78-99.  [fuel] bounds the nesting *)
Fixpoint dec_elem27 (fuel : nat) (pages : list (list N)) (path : list N) (v : val) (d : dict27) : res (titem * dict27) :=
  match fuel with
  | O => Err Timeout
  | S fuel =>
    el <- vlist v ;; ty <- vnth 0 el ;; ty <- vstr ty ;;
    match dget ty types27 with
    | None => Err ExtExc
    | Some tn =>
      nm <- vneg 2 el ;; nm <- vget nm 1 ;; nm <- vstr nm ;; let name := str_decode nm in
      geo <- vneg 3 el ;; page <- vneg_get geo 5 ;; id <- vnth 1 el ;; id <- vstr id ;;
      pn <- page_name pages page ;;
      let key := calc_id [path; opt_str pn; name] in
      let pid := calc_id [path; opt_str pn] in
      if str_eqb tn n_panel then
        let inner := inner_path key in
        p2 <- vnth 2 el ;; pd <- vget p2 1 ;; pd <- vlist pd ;;
        ' (pd, pages1, d1) <- dec_pages inner pd ;;
        p2 <- Payload.vset p2 1 (VList pd) ;; let el := set_nth 2 p2 el in
        last <- vneg 1 el ;; last <- vlist last ;;
        ' (last, kids, d1) <- dec_section (dec_elem27 fuel pages1 inner) last d1 ;;
        let el := set_nth (length el - 1) (VList last) el in
        Ok (TItem name tn pn (Some kids), dupdate (dset key (EElem id pid (VList el) (dget id pidx)) d) d1)
      else Ok (TItem name tn pn None, dset key (EElem id pid v (dget id pidx)) d)
    end
  end.
End Dec.

(** FormElement.py 144-168: the properties; [at_]: name_index *)
Definition prop27_dec (at_ : nat) (raw : val) : res prop27 := n <- item_name at_ raw ;; i <- vget raw 0 ;; i <- vget i 0 ;; Ok (mkprop27 n i raw).
Definition props27_dec (at_ : nat) (sec : list val) : res (list val * option (list prop27)) :=
  c <- vnth 0 sec ;; n <- int_of_val c ;;
  if (n =? 0)%Z then Ok (sec, None)
  else if (n <? 0)%Z then Err ValueError
  else ks <- take_at 1 (Z.to_nat n) sec ;; ps <- mapm (prop27_dec at_) ks ;; Ok (VStr kids_mark :: skipn (S (Z.to_nat n)) sec, Some ps).
(** FormElements27.py 56-81 create_prop_index_by_elem_id *)
Definition prop_ids (ps : list prop27) : res (list (list N * list N)) := fold_left (fun d p => d <- d ;; i <- id_str (p7_id p) ;; Ok (dset i (p7_name p) d)) ps (Ok []).
Fixpoint index_sources (ids : list (list N * list N)) (n : nat) (l : list val) (d : list (list N * list N)) : res (list (list N * list N)) :=
  match n with
  | O => Ok d
  | S n => match l with
           | [] => Err IndexError
           | e :: r =>
             i <- vget e 0 ;; a <- vget e 1 ;; a <- vget a 1 ;; a <- vget a 0 ;; p <- id_str a ;;
             d <- match dget p ids with Some name => i <- id_str i ;; Ok (dset i name d) | None => Ok d end ;;
             index_sources ids n r d
           end
  end.
Definition sources_index (ps : option (list prop27)) (ds : val) : res (list (list N * list N)) :=
  match ps with
  | None | Some [] => Ok []
  | Some ps => ids <- prop_ids ps ;; c <- vget ds 0 ;; n <- int_of_val c ;;
               if (n =? 0)%Z then Ok [] else if (n <? 0)%Z then Ok [] else l <- vlist ds ;; index_sources ids (Z.to_nat n) (skipn 1 l) []
  end.
(** FormElements27.py 34-54 decode; Panel.py 78-99 for the panel of the form.  The changed form, also when the
    elements cannot be read, is not needed: it is replaced by a copy (FormCore.py 195-199). *)
Definition elems27_decode (name_index : nat) (raw : list val) : res (list val * felems27) :=
  r2 <- vnth 2 raw ;; sec <- vget r2 2 ;; sec <- vlist sec ;;
  ' (sec, props) <- props27_dec name_index sec ;;
  r2 <- Payload.vset r2 2 (VList sec) ;; let raw := set_nth 2 r2 raw in
  r1 <- vnth 1 raw ;; pan <- vget r1 2 ;; ty <- vget pan 0 ;;
  if negb (is_str ty u_panel) then Err ExtExc
  else
    r2 <- vnth 2 raw ;; ds <- vget r2 3 ;; pidx <- sources_index props ds ;;
    pan <- vlist pan ;; p1 <- vnth 1 pan ;; pl1 <- vlist p1 ;; pd <- vnth 1 pl1 ;; pd <- vlist pd ;;
    ' (pd, pages, d) <- dec_pages [] pd ;;
    p1 <- Payload.vset p1 1 (VList pd) ;; let pan := set_nth 1 p1 pan in
    s <- vnth 2 pan ;; s <- vlist s ;;
    ' (s, tree, d) <- dec_section (dec_elem27 pidx (vdepth (VList s)) pages []) s d ;;
    let pan := set_nth 2 (VList s) pan in
    r1 <- Payload.vset r1 2 (VList pan) ;;
    Ok (set_nth 1 r1 raw, mkelems27 props tree d).

(** ** Build *)
Section Enc.
Variable names : list (list N * val).                    (* props_index: name of a property -> its id *)
Variable data : dict27.
(** Panel.py 349-391 encode_pages *)
Fixpoint enc_page_list (path : list N) (pages : list (list N)) : res (list val * list val) :=
  match pages with
  | [] => Ok ([], [])
  | name :: r =>
    match dget (calc_id [path; name]) data with
    | Some (EPage _ raw info) => ' (raws, infos) <- enc_page_list path r ;; Ok (raw :: raws, match info with Some i => i | None => [] end ++ infos)
    | _ => Err ExtExc
    end
  end.
Definition enc_pages (path : list N) (rd : list val) : res (list val) :=
  off <- pages_off rd ;; p <- py_nth rd off ;; pl <- vlist p ;; _ <- vnth 0 pl ;;
  match dget (calc_id [path; s_pages]) data with
  | Some (EPages pages) =>
    ' (raws, infos) <- enc_page_list path pages ;;
    rd <- zput off (VList (firstn 1 pl ++ VStr (str_of_int (zlen pages)) :: raws ++ skipn 1 pl)) rd ;;
    let at_ := (off + 4)%Z in
    zput at_ (VStr (str_of_int (zlen infos))) (pyslice rd 0 (at_ + 1) ++ infos ++ pyslice rd (at_ + 1) (zlen rd))
  | _ => Err ExtExc
  end.
(** 437-449: the key of an item *)
Definition item_key (path : list N) (page : option (list N)) (name : list N) : list N :=
  join [47] (filter (fun p => negb (length p =? 0)%nat) [path; opt_str page] ++ [name]).
(** 451-452 *)
Definition put_elems (rs : list val) (l : list val) : res (list val) :=
  match l with [] => Err IndexError | _ :: r => Ok (VStr (str_of_int (zlen rs)) :: r ++ rs) end.
(** FormElement.py 117-137, Panel.py 298-340, 406-435 *)
Fixpoint enc_elem27 (path : list N) (x : titem) {struct x} : res val :=
  match x with
  | TItem name ty page child =>
    match dget (item_key path page name) data with
    | Some (EElem _ _ raw prop) =>
      _ <- match prop with
           | Some (c :: r) => match dget (c :: r) names with Some v => if truthy v then Ok tt else Err ExtExc | None => Err ExtExc end
           | _ => Ok tt
           end ;;
      id <- vget raw 1 ;;
      if str_eqb ty n_panel then
        _ <- vstr id ;;
        match child with
        | None => Err KeyError
        | Some l =>
          let inner := inner_path (calc_id [path; opt_str page; name]) in
          el <- vlist raw ;; p2 <- vnth 2 el ;; pd <- vget p2 1 ;; pd <- vlist pd ;;
          pd <- enc_pages inner pd ;;
          p2 <- Payload.vset p2 1 (VList pd) ;; let el := set_nth 2 p2 el in
          last <- vneg 1 el ;; last <- vlist last ;;
          rs <- (fix go (l : list titem) : res (list val) := match l with [] => Ok [] | x :: r => z <- enc_elem27 inner x ;; zs <- go r ;; Ok (z :: zs) end) l ;;
          last <- put_elems rs last ;;
          Ok (VList (set_nth (length el - 1) (VList last) el))
        end
      else Ok raw
    | _ => Err ExtExc
    end
  end.
End Enc.
(** FormElement.py 170-185 *)
Definition props27_enc (ps : option (list prop27)) (sec : list val) : res (list val) :=
  c <- vnth 0 sec ;;
  if is_str c kids_mark then
    match ps with
    | Some (p :: r) => Ok (VStr (str_of_int (zlen (p :: r))) :: map p7_raw (p :: r) ++ skipn 1 sec)
    | _ => Ok (VStr t0 :: skipn 1 sec)
    end
  else Ok sec.
(** FormElements27.py 83-90 *)
Definition names27 (ps : option (list prop27)) : list (list N * val) := fold_left (fun d p => dset (p7_name p) (p7_id p) d) (match ps with Some l => l | None => [] end) [].
(** FormElements27.py 99-116 *)
Definition elems27_encode (fe : felems27) (raw : list val) : res (list val) :=
  r2 <- vnth 2 raw ;; sec <- vget r2 2 ;; sec <- vlist sec ;; sec <- props27_enc (f7_props fe) sec ;;
  r2 <- Payload.vset r2 2 (VList sec) ;; let raw := set_nth 2 r2 raw in
  r1 <- vnth 1 raw ;; pan <- vget r1 2 ;; pan <- vlist pan ;; p1 <- vnth 1 pan ;; pl1 <- vlist p1 ;; pd <- vnth 1 pl1 ;; pd <- vlist pd ;;
  pd <- enc_pages (f7_data fe) [] pd ;;
  p1 <- Payload.vset p1 1 (VList pd) ;; let pan := set_nth 1 p1 pan in
  s <- vnth 2 pan ;; s <- vlist s ;;
  rs <- mapm (enc_elem27 (names27 (f7_props fe)) (f7_data fe) []) (f7_tree fe) ;;
  s <- put_elems rs s ;;
  let pan := set_nth 2 (VList s) pan in
  r1 <- Payload.vset r1 2 (VList pan) ;;
  Ok (set_nth 1 r1 raw).
