(** Model of /repo/src/v8unpack/organizer_form_elem.py: form elements whose names begin with "include_" or "includr_" have
    their inner elements in files of their own.  A document is the content of a file *.elem.json: a list 'tree' of elements
    and a dictionary 'data' by the paths of elements.
    Simplifications: a number is true in a condition; the names of pages are a list of strings; the nesting of elements is
    bounded by [fuel]; in an error the kind of the exception is kept only up to the ExtException around it. *)
From Coq Require Import String.
From Verif Require Import PyBase PyText JsonText.
Set Implicit Arguments.
Open Scope list_scope.
Open Scope N_scope.

Definition k_name : list N := Eval vm_compute in u "name"%string.
Definition k_page : list N := Eval vm_compute in u "page"%string.
Definition k_child : list N := Eval vm_compute in u "child"%string.
Definition k_tree : list N := Eval vm_compute in u "tree"%string.
Definition k_data : list N := Eval vm_compute in u "data"%string.
Definition w_include : list N := Eval vm_compute in u "include_"%string.
Definition w_includr : list N := Eval vm_compute in u "includr_"%string.
Definition w_pages : list N := Eval vm_compute in u "/-pages-"%string.
Definition w_separate : list N := Eval vm_compute in u "В отдельном файле"%string.
Definition w_root : list N := Eval vm_compute in u "root"%string.
Definition jd : Type := list (list N * jval).

(** lines 25-30 is_area: true for include_, false for includr_ *)
Definition is_area (name : list N) : option bool :=
  let t := firstn 8 name in
  if str_eqb t w_include then Some true else if str_eqb t w_includr then Some false else None.
(** an element; its name *)
Definition fields (j : jval) : res jd := match j with Jobj e => Ok e | _ => Err TypeError end.
Definition name_of (e : jd) : res (list N) := match dget k_name e with Some (Jstr s) => Ok s | Some _ => Err TypeError | None => Err KeyError end.
(** elem.get('page') and elem.get('child') as they are used in conditions *)
Definition page_of (e : jd) : res (list N) :=
  match dget k_page e with
  | None | Some Jnull | Some (Jbool false) | Some (Jlist []) | Some (Jobj []) => Ok []
  | Some (Jstr s) => Ok s
  | _ => Err TypeError
  end.
Definition items (o : option jval) : res (list jval) :=
  match o with
  | None | Some Jnull | Some (Jbool false) | Some (Jstr []) | Some (Jobj []) => Ok []
  | Some (Jlist l) => Ok l
  | _ => Err TypeError
  end.
(** lines 32-42 get_old_path *)
Definition old_path (page path name : list N) : list N := join [47] (filter (fun p => negb (length p =? 0)%nat) [path; page; name]).
(** lines 84 and 96, 99: the path without the prefix *)
Definition cut (remove p : list N) : list N := match remove with [] => p | _ => skipn (S (length remove)) p end.
(** lines 180 and 192, 196 *)
Definition full (append p : list N) : list N := match append with [] => p | _ => append ++ [47] ++ p end.
Fixpoint page_names (l : list jval) : res (list (list N)) :=
  match l with [] => Ok [] | Jstr s :: r => ns <- page_names r ;; Ok (s :: ns) | _ => Err TypeError end.

(** lines 94-104: pages *)
Fixpoint pop_pages (remove path : list N) (names : list (list N)) (root data : jd) : jd * jd :=
  match names with
  | [] => (root, data)
  | n :: r =>
    match dget (path ++ [47] ++ n) root with
    | Some v => pop_pages remove path r (ddel (path ++ [47] ++ n) root) (dset (cut remove path ++ [47] ++ n) v data)
    | None => pop_pages remove path r root data
    end
  end.
Definition pop_panel (remove path : list N) (root data : jd) : res (jd * jd) :=
  match dget (path ++ w_pages) root with
  | None => Ok (root, data)
  | Some Jnull => Ok (ddel (path ++ w_pages) root, data)
  | Some (Jlist l) =>
    names <- page_names l ;;
    Ok (pop_pages remove path names (ddel (path ++ w_pages) root) (dset (cut remove path ++ w_pages) (Jlist l) data))
  | Some _ => Err TypeError
  end.
(** lines 77-107 _pop_area_data *)
Fixpoint pop_area (fuel : nat) (remove : list N) (tree : list jval) (path : list N) (root data : jd) : res (jd * jd) :=
  match fuel with
  | O => Err Timeout
  | S fuel =>
    ' (root, data) <-
      (fix go (tree : list jval) (root data : jd) : res (jd * jd) :=
         match tree with
         | [] => Ok (root, data)
         | j :: rest =>
           e <- fields j ;; name <- name_of e ;; page <- page_of e ;;
           let old := old_path page path name in
           match dget old root with
           | None => Err ExtExc
           | Some v =>
             c <- items (dget k_child e) ;;
             ' (root, data) <- match c with
                               | [] => Ok (ddel old root, dset (cut remove old) v data)
                               | _ => pop_area fuel remove c old (ddel old root) (dset (cut remove old) v data)
                               end ;;
             go rest root data
           end
         end) tree root data ;;
    pop_panel remove path root data
  end.
(** An area: its data and its elements *)
Record area := mkarea { a_data : jd; a_tree : jval }.
(** lines 45-75 _unpack_get_areas: the elements and the data that stay, and the areas *)
Fixpoint get_areas (fuel : nat) (tree : list jval) (path : list N) (root : jd) (areas : list (list N * area)) : res (list jval * jd * list (list N * area)) :=
  match fuel with
  | O => Err Timeout
  | S fuel =>
    (fix go (tree : list jval) (root : jd) (areas : list (list N * area)) : res (list jval * jd * list (list N * area)) :=
       match tree with
       | [] => Ok ([], root, areas)
       | j :: rest =>
         e <- fields j ;; name <- name_of e ;; page <- page_of e ;;
         ' (j', root, areas) <-
           match is_area name with
           | Some writable =>
             let t := match dget k_child e with Some t => t | None => Jlist [] end in
             l <- items (Some t) ;;
             ' (root, data) <- pop_area fuel (old_path page path []) l (old_path page path (w_include ++ skipn 8 name)) root [] ;;
             Ok (Jobj (dset k_child (Jstr w_separate) (ddel k_child e)), root, if writable then dset (skipn 8 name) (mkarea data t) areas else areas)
           | None =>
             c <- items (dget k_child e) ;;
             match c with
             | [] => Ok (j, root, areas)
             | _ => ' (c', root, areas) <- get_areas fuel c (old_path page path name) root areas ;; Ok (Jobj (dset k_child (Jlist c') e), root, areas)
             end
           end ;;
         ' (rest', root, areas) <- go rest root areas ;; Ok (j' :: rest', root, areas)
       end) tree root areas
  end.
(** lines 14-21 unpack: the document that stays and the areas; an area with the name "root" is replaced by the document *)
Definition doc_of (j : jval) : res (jd * list jval * jd) :=
  match j with
  | Jobj d => match dget k_tree d, dget k_data d with
              | Some (Jlist tree), Some (Jobj data) => Ok (d, tree, data)
              | Some (Jlist _), Some _ | Some _, _ => Err ExtExc
              | None, _ => Err KeyError
              end
  | _ => Err TypeError
  end.
Definition with_doc (d : jd) (tree : list jval) (data : jd) : jval := Jobj (dset k_data (Jobj data) (dset k_tree (Jlist tree) d)).
Definition wrap_ext {A} (r : res A) : res A := match r with Ok a => Ok a | Err Timeout => Err Timeout | Err _ => Err ExtExc end.
Definition unpack_elems (fuel : nat) (doc : jval) : res (jval * list (list N * area)) :=
  ' (d, tree, data) <- doc_of doc ;;
  ' (tree', data', areas) <- wrap_ext (get_areas fuel tree [] data []) ;;
  Ok (with_doc d tree' data', areas).

(** ** Build *)
(** lines 189-204 *)
Fixpoint put_pages (append path _path : list N) (names : list (list N)) (root data : jd) : jd * jd :=
  match names with
  | [] => (root, data)
  | n :: r =>
    match dget (path ++ [47] ++ n) data with
    | Some v => put_pages append path _path r (dset (full append (_path ++ [47] ++ n)) v root) (ddel (path ++ [47] ++ n) data)
    | None => put_pages append path _path r root data
    end
  end.
Definition put_panel (append path _path : list N) (root data : jd) : res (jd * jd) :=
  match dget (path ++ w_pages) data with
  | None => Ok (root, data)
  | Some Jnull => Ok (root, ddel (path ++ w_pages) data)
  | Some (Jlist l) =>
    names <- page_names l ;;
    Ok (put_pages append path _path names (dset (full append (_path ++ w_pages)) (Jlist l) root) (ddel (path ++ w_pages) data))
  | Some _ => Err TypeError
  end.
(** lines 170-206 _append_area_data *)
Fixpoint put_area (fuel : nat) (append : list N) (readonly : bool) (tree : list jval) (path : list N) (root data : jd) : res (jd * jd) :=
  match fuel with
  | O => Err Timeout
  | S fuel =>
    let _path := if readonly then w_include ++ skipn 8 path else path in
    ' (root, data) <-
      (fix go (tree : list jval) (root data : jd) : res (jd * jd) :=
         match tree with
         | [] => Ok (root, data)
         | j :: rest =>
           e <- fields j ;; name <- name_of e ;; page <- page_of e ;;
           let old := old_path page _path name in
           match dget old data with
           | None => Err ExtExc
           | Some v =>
             c <- items (dget k_child e) ;;
             ' (root, data) <- match c with
                               | [] => Ok (dset (full append old) v root, ddel old data)
                               | _ => put_area fuel append false c old (dset (full append old) v root) (ddel old data)
                               end ;;
             go rest root data
           end
         end) tree root data ;;
    put_panel append path _path root data
  end.
(** lines 142-168 _pack_get_areas; [read]: the document of an area *)
Fixpoint put_areas (fuel : nat) (read : list N -> res area) (tree : list jval) (path : list N) (root : jd) : res (list jval * jd) :=
  match fuel with
  | O => Err Timeout
  | S fuel =>
    (fix go (tree : list jval) (root : jd) : res (list jval * jd) :=
       match tree with
       | [] => Ok ([], root)
       | j :: rest =>
         e <- fields j ;; name <- name_of e ;; page <- page_of e ;;
         ' (j', root) <-
           match is_area name with
           | Some writable =>
             a <- read (skipn 8 name) ;;
             l <- items (Some (a_tree a)) ;;
             ' (root, _) <- put_area fuel (old_path page path []) (negb writable) l name root (a_data a) ;;
             Ok (Jobj (dset k_child (a_tree a) e), root)
           | None =>
             c <- items (dget k_child e) ;;
             match c with
             | [] => Ok (j, root)
             | _ => ' (c', root) <- put_areas fuel read c (old_path page path name) root ;; Ok (Jobj (dset k_child (Jlist c') e), root)
             end
           end ;;
         ' (rest', root) <- go rest root ;; Ok (j' :: rest', root)
       end) tree root
  end.
(** lines 122-135 pack *)
Definition pack_elems (fuel : nat) (read : list N -> res area) (doc : jval) : res jval :=
  ' (d, tree, data) <- wrap_ext (doc_of doc) ;;
  ' (tree', data') <- wrap_ext (put_areas fuel read tree [] data) ;;
  Ok (with_doc d tree' data').

(** ** The documents of the files *)
(** lines 56-61, 113-118: the file of an area *)
Definition area_json (a : area) : jval := Jobj [(k_data, Jobj (a_data a)); (k_tree, a_tree a)].
(** lines 155-158: the parts of the file of an area; simplified: data that are not a dictionary are an error at once *)
Definition area_of (j : jval) : res area :=
  match j with
  | Jobj d => match dget k_tree d, dget k_data d with
              | Some t, Some (Jobj data) => Ok (mkarea data t)
              | None, _ | _, None => Err KeyError
              | _, _ => Err TypeError
              end
  | _ => Err TypeError
  end.
(** lines 14-21: what is written, by the names of areas; the document itself has the name "root" *)
Definition unpack_docs (fuel : nat) (doc : jval) : res (list (list N * jval)) :=
  ' (doc', areas) <- unpack_elems fuel doc ;;
  Ok (dset w_root doc' (map (fun na => (fst na, area_json (snd na))) areas)).
(** lines 122-135 *)
Definition pack_docs (fuel : nat) (read : list N -> res jval) (doc : jval) : res jval := pack_elems fuel (fun n => j <- read n ;; area_of j) doc.
