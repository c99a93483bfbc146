(** Model of the elements of managed forms:
    /repo/src/v8unpack/MetaDataObject/Form/FormElements4/*.py.
    A form is the list found in the file <uuid>.0 (form[0][0]); the functions of the code change it in
    place, the model returns the changed list.  Simplifications: an element that is not a list, a name that
    is not a str, a negative count or position, and an id that is not a str where it is a dictionary key are
    errors; every error is the same (the callers treat all alike); in a build, two elements of one path
    get copies of the stored data (the code gives them the same list); the file .elem.json must have the
    types that extraction writes. *)
From Coq Require Import String.
From Verif Require Import PyBase PyInt Brace Header CalcOffset JsonText JsonTextProofs JsonObj Container Pipeline FormCode Payload MetaObj.
Set Implicit Arguments.
Open Scope list_scope.
Open Scope N_scope.

Definition kids_mark : list N := Eval vm_compute in u "Дочерние элементы отдельно"%string.
Definition cols_mark : list N := Eval vm_compute in u "отдельно"%string.
Definition parent_mark : list N := Eval vm_compute in u "Родитель"%string.
Definition s_hash : list N := Eval vm_compute in [34; 35; 34].
Definition s_include : list N := Eval vm_compute in u "include_"%string.
Definition s_includr : list N := Eval vm_compute in u "includr_"%string.
Definition s_22 : list N := Eval vm_compute in u "22"%string.
Definition s_55 : list N := Eval vm_compute in u "55"%string.
Definition k_params : list N := Eval vm_compute in u "params"%string.
Definition k_props : list N := Eval vm_compute in u "props"%string.
Definition k_commands : list N := Eval vm_compute in u "commands"%string.
Definition k_tree : list N := Eval vm_compute in u "tree"%string.
Definition k_data : list N := Eval vm_compute in u "data"%string.
Definition k_type : list N := Eval vm_compute in u "type"%string.
Definition k_child : list N := Eval vm_compute in u "child"%string.
Definition k_id : list N := Eval vm_compute in u "id"%string.
Definition k_raw : list N := Eval vm_compute in u "raw"%string.
Definition k_ver : list N := Eval vm_compute in u "ver"%string.
Definition k_name : list N := Eval vm_compute in u "name"%string.
Definition k_proplink : list N := Eval vm_compute in u "ПутьКДанным"%string.
Definition k_cmdlink : list N := Eval vm_compute in u "ИмяКоманды"%string.

(** ** Kinds of elements *)
(** FormElement.py 23-29 *)
Inductive fkind := FField | FButton | FDecoration | FGroup | FTable | FAddition.
Definition u_field : list N := Eval vm_compute in u "77ffcc29-7f2d-4223-b22f-19666e7250ba"%string.
Definition u_button : list N := Eval vm_compute in u "a9f3b1ac-f51b-431e-b102-55a69acdecad"%string.
Definition u_decoration : list N := Eval vm_compute in u "3d3cb80c-508b-41fa-8a18-680cdf5f1712"%string.
Definition u_group : list N := Eval vm_compute in u "cd5394d0-7dda-4b56-8927-93ccbe967a01"%string.
Definition u_table : list N := Eval vm_compute in u "143c00f7-a42d-4cd7-9189-88e4467dc768"%string.
Definition u_addition : list N := Eval vm_compute in u "c5259a1d-518a-4afd-b98d-0176027e4feb"%string.
Definition n_field : list N := Eval vm_compute in u "Field"%string.
Definition n_button : list N := Eval vm_compute in u "Button"%string.
Definition n_decoration : list N := Eval vm_compute in u "Decoration"%string.
Definition n_group : list N := Eval vm_compute in u "Group"%string.
Definition n_table : list N := Eval vm_compute in u "Table"%string.
Definition n_addition : list N := Eval vm_compute in u "ItemAddition"%string.
Definition kinds : list fkind := [FField; FButton; FDecoration; FGroup; FTable; FAddition].
Definition kind_uuid (k : fkind) : list N :=
  match k with FField => u_field | FButton => u_button | FDecoration => u_decoration | FGroup => u_group | FTable => u_table | FAddition => u_addition end.
Definition kind_name (k : fkind) : list N :=
  match k with FField => n_field | FButton => n_button | FDecoration => n_decoration | FGroup => n_group | FTable => n_table | FAddition => n_addition end.
Definition kind_by (f : fkind -> list N) (s : list N) : option fkind := find (fun k => str_eqb (f k) s) kinds.

(** the places (Button.py, Decoration.py, Field.py, Group.py, ItemAddition.py, Table.py): of the name, of the
    link to a property, of the link to a command, of the number of children *)
Open Scope Z_scope.
Definition name_at (k : fkind) : list (Z * Z) :=
  match k with
  | FButton => [(3, 1); (2, 0)]
  | FDecoration | FField | FGroup => [(3, 1); (1, 1); (2, 0)]
  | FAddition => [(3, 1); (3, 0)]
  | FTable => [(4, 1); (1, 0)]
  end.
Definition prop_at (k : fkind) : option (list (Z * Z)) :=
  match k with FField => Some [(3, 1); (1, 1); (7, 0)] | FTable => Some [(4, 1); (7, 0)] | _ => None end.
Definition command_at (k : fkind) : option (list (Z * Z)) :=
  match k with FButton => Some [(3, 1); (5, 0)] | _ => None end.
Definition kids_at (k : fkind) : option (list (Z * Z)) :=
  match k with FGroup => Some [(3, 1); (1, 1); (17, 0)] | FTable => Some [(4, 1); (50, 2); (7, 0)] | _ => None end.

(** FormElement.py 7-20 check_count_element *)
Fixpoint var_len (index : Z) (counters : list (Z * Z)) (raw : list val) : res Z :=
  match counters with
  | [] => Ok 0
  | (c, size) :: rest =>
    let index := index + c in
    if size =? 0 then var_len index rest raw
    else v <- py_nth raw index ;; value <- int_of_val v ;; n <- var_len (index + value * size) rest raw ;; Ok (value * size + n)
  end.
Definition first_is (s : list N) (raw : list val) : bool := match raw with VStr x :: _ => str_eqb x s | _ => false end.
(** Group.py 15-25, Table.py 17-26 *)
Definition check_size (k : fkind) (raw : list val) : res unit :=
  match k with
  | FGroup => n <- var_len 0 [(3, 1); (1, 1); (17, 2)] raw ;; if first_is s_22 raw && (zlen raw - n <? 20) then Err ExtExc else Ok tt
  | FTable => n <- var_len 0 [(4, 1); (50, 2); (7, 2)] raw ;; if first_is s_55 raw && negb (zlen raw - n =? 99) then Err ExtExc else Ok tt
  | _ => Ok tt
  end.
Close Scope Z_scope.

(** ** Sources *)
(** An entry of 'data'; an element of 'tree'; 'child' is null or a list for groups and tables *)
Record edata := mkedata { e_raw : list val; e_prop : option (list N); e_cmd : option (list N) }.
Inductive fitem := FItem (name : list N) (k : fkind) (child : option (list fitem)).
(** columns, properties, commands and parameters *)
Record fcol := mkcol { co_name : list N; co_id : val; co_raw : val }.
Record fprop := mkprop { pr_name : list N; pr_id : val; pr_raw : val; pr_cols : option (list fcol) }.
Record fcmd := mkcmd { cm_name : list N; cm_id : val; cm_raw : val }.
Record fpar := mkpar { pa_name : list N; pa_raw : val }.
(** the file .elem.json *)
Record felems := mkelems { fe_params : option (list fpar); fe_props : option (list fprop); fe_commands : option (list fcmd); fe_tree : option (list fitem); fe_data : list (list N * edata) }.

Definition truthy (v : val) : bool := match v with VNone => false | VStr s => negb (length s =? 0)%nat | VList l => negb (length l =? 0)%nat end.
Definition vlen (v : val) : nat := match v with VNone => 0 | VStr s => length s | VList l => length l end.
Definition elem_path (path name : list N) : list N := match path with [] => name | _ => path ++ [47] ++ name end.

(** ** Lists of properties, commands and parameters *)
(** FormElement.py 255-381.  A function of extraction gives the changed list even when it fails: the error is
    swallowed by decode_list (291-292). *)
(** 337-340, 363-365: the pattern names [s] as its type *)
Definition pattern_is (s : list N) (raw : val) : res bool :=
  p <- vget raw 5 ;;
  if truthy p && (1 <? vlen p)%nat
  then a <- vget p 1 ;; h <- vget a 0 ;; if is_str h s_hash then t <- vget a 1 ;; Ok (is_str t s) else Ok false
  else Ok false.
Definition set_pattern (s : list N) (raw : val) : res val :=
  p <- vget raw 5 ;; a <- vget p 1 ;; a <- Payload.vset a 1 (VStr s) ;; p <- Payload.vset p 1 a ;; Payload.vset raw 5 p.
Definition item_name (at_ : nat) (raw : val) : res (list N) := v <- vget raw at_ ;; s <- vstr v ;; Ok (str_decode s).
(** 353-358 decode_child *)
Definition col_dec (raw : val) : res fcol := n <- item_name 3 raw ;; i <- vget raw 1 ;; Ok (mkcol n i raw).
Definition cols_at : nat := 13.
Fixpoint mapm (A B : Type) (f : A -> res B) (l : list A) : res (list B) :=
  match l with [] => Ok [] | x :: r => y <- f x ;; ys <- mapm f r ;; Ok (y :: ys) end.
(** l[a:a+n] *)
Definition take_at (a n : nat) (l : list val) : res (list val) := if (length l <? a + n)%nat then Err IndexError else Ok (firstn n (skipn a l)).
(** 326-351 *)
Definition prop_dec (parent : option (list N)) (raw : val) : val * res fprop :=
  match (n <- item_name 3 raw ;; i <- vget raw 1 ;; i <- vget i 0 ;; c <- vget raw cols_at ;; c <- int_of_val c ;;
         mine <- match parent with Some p => pattern_is p raw | None => Ok false end ;; Ok (n, i, c, mine)) with
  | Err e => (raw, Err e)
  | Ok (n, i, c, mine) =>
    match (if mine : bool then set_pattern parent_mark raw else Ok raw) with
    | Err e => (raw, Err e)
    | Ok raw1 =>
      if (c =? 0)%Z then (raw1, Ok (mkprop n i raw1 None))
      else match (l <- vlist raw1 ;; _ <- (if (c <? 0)%Z then Err ValueError else Ok tt) ;; ks <- take_at (S cols_at) (Z.to_nat c) l ;; cs <- mapm col_dec ks ;; Ok (l, cs)) with
           | Err e => (raw1, Err e)
           | Ok (l, cs) => let raw2 := VList (firstn cols_at l ++ VStr cols_mark :: skipn (S cols_at + Z.to_nat c) l) in (raw2, Ok (mkprop n i raw2 (Some cs)))
           end
    end
  end.
(** 375-381; 263-268 *)
Definition cmd_dec (raw : val) : val * res fcmd := (raw, n <- item_name 2 raw ;; i <- vget raw 1 ;; i <- vget i 0 ;; Ok (mkcmd n i raw)).
Definition par_dec (raw : val) : val * res fpar := (raw, n <- item_name 1 raw ;; Ok (mkpar n raw)).
(** the loop of 283-284: the changed items and what was found *)
Fixpoint run_dec (A : Type) (dec : val -> val * res A) (n : nat) (l : list val) : list val * option (list A) :=
  match n with
  | O => (l, Some [])
  | S n => match l with
           | [] => ([], None)
           | x :: r => let (x', y) := dec x in
                       match y with
                       | Err _ => (x' :: r, None)
                       | Ok y => let (r', ys) := run_dec dec n r in (x' :: r', match ys with Some ys => Some (y :: ys) | None => None end)
                       end
           end
  end.
(** 270-292 decode_list *)
Definition list_dec (A : Type) (dec : val -> val * res A) (at_ : nat) (raw : list val) : list val * option (list A) :=
  match nth_error raw at_ with
  | Some (VList (h :: c :: l)) =>
    match int_of_val c with
    | Ok n =>
      if (n =? 0)%Z || (n <? 0)%Z then (raw, None)
      else let (l', ys) := run_dec dec (Z.to_nat n) l in
           match ys with
           | None => (set_nth at_ (VList (h :: c :: l')) raw, None)
           | Some ys => (set_nth at_ (VList (h :: VStr kids_mark :: skipn (Z.to_nat n) l')) raw, Some ys)
           end
    | Err _ => (raw, None)
    end
  | _ => (raw, None)
  end.

(** 360-373 *)
Definition prop_enc (parent : option (list N)) (p : fprop) : res val :=
  let raw := pr_raw p in
  mine <- pattern_is parent_mark raw ;;
  raw <- match parent with Some (c :: r) => if mine : bool then set_pattern (c :: r) raw else Ok raw | _ => Ok raw end ;;
  match pr_cols p with
  | Some (c :: cs) =>
    raw <- Payload.vset raw cols_at (VStr (str_of_int (Z.of_nat (length (c :: cs))))) ;; l <- vlist raw ;;
    Ok (VList (firstn (S cols_at) l ++ map co_raw (c :: cs) ++ skipn (S cols_at) l))
  | _ => Ok raw
  end.
Definition cmd_enc (c : fcmd) : res val := Ok (cm_raw c).
Definition par_enc (p : fpar) : res val := Ok (pa_raw p).
(** 294-311 encode_list: the changed form and the items used *)
Definition list_enc (A : Type) (enc : A -> res val) (at_ : nat) (items : option (list A)) (raw : list val) : res (list val * option (list A)) :=
  match nth_error raw at_ with
  | None => Ok (raw, None)
  | Some sec =>
    c <- vget sec 1 ;;
    if is_str c kids_mark then
      l <- vlist sec ;;
      match items with
      | Some (x :: xs) => ys <- mapm enc (x :: xs) ;; Ok (set_nth at_ (VList (firstn 1 l ++ VStr (str_of_int (Z.of_nat (length (x :: xs)))) :: ys ++ skipn 2 l)) raw, items)
      | _ => Ok (set_nth at_ (VList (firstn 1 l ++ VStr t0 :: skipn 2 l)) raw, items)
      end
    else Ok (raw, None)
  end.

(** ** Indexes *)
Definition id_str (v : val) : res (list N) := match v with VStr s => Ok s | _ => Err TypeError end.
(** FormElements4.py 31-39 *)
Inductive pnode := PN (name : list N) (kids : list (list N * pnode)).
Definition index_cols (cs : option (list fcol)) : res (list (list N * pnode)) :=
  fold_left (fun d c => d <- d ;; i <- id_str (co_id c) ;; Ok (dset i (PN (co_name c) []) d)) (match cs with Some l => l | None => [] end) (Ok []).
Definition index_props (ps : option (list fprop)) : res (list (list N * pnode)) :=
  fold_left (fun d p => d <- d ;; i <- id_str (pr_id p) ;; ks <- index_cols (pr_cols p) ;; Ok (dset i (PN (pr_name p) ks) d)) (match ps with Some l => l | None => [] end) (Ok []).
(** 41-45 *)
Definition index_commands (cs : option (list fcmd)) : res (list (list N * list N)) :=
  fold_left (fun d c => d <- d ;; i <- id_str (cm_id c) ;; Ok (dset i (cm_name c) d)) (match cs with Some l => l | None => [] end) (Ok []).
(** 47-55: one id or two *)
Definition names_props (ps : option (list fprop)) : list (list N * (val * option val)) :=
  fold_left (fun d p => fold_left (fun d c => dset (pr_name p ++ [46] ++ co_name c) (pr_id p, Some (co_id c)) d) (match pr_cols p with Some l => l | None => [] end) (dset (pr_name p) (pr_id p, None) d))
    (match ps with Some l => l | None => [] end) [].
(** 57-61 *)
Definition names_commands (cs : option (list fcmd)) : res (list (list N * val)) :=
  fold_left (fun d c => d <- d ;; v <- vget (cm_raw c) 1 ;; Ok (dset (cm_name c) v d)) (match cs with Some l => l | None => [] end) (Ok []).

(** ** Extraction of the elements *)
(** FormElement.py 60-73: the names along a link; None when one is unknown *)
Fixpoint link_names (n i : nat) (link : val) (idx : list (list N * pnode)) : res (option (list (list N))) :=
  match n with
  | O => Ok (Some [])
  | S n => x <- vget link (S i) ;; x <- vget x 0 ;; id <- id_str x ;;
           match dget id idx with
           | None => Ok None
           | Some (PN name kids) => r <- link_names n (S i) link kids ;; Ok (match r with Some ns => Some (name :: ns) | None => None end)
           end
  end.
Definition some_str (s : list N) : option (list N) := match s with [] => None | _ => Some s end.
(** 55-76 *)
Definition prop_of (idx : list (list N * pnode)) (k : fkind) (raw : list val) : res (option (list N)) :=
  match prop_at k with
  | None => Ok None
  | Some at_ =>
    off <- calc_offset at_ raw ;; link <- py_nth raw off ;;
    if truthy link
    then h <- vget link 0 ;; n <- int_of_val h ;; ns <- link_names (Z.to_nat n) 0 link idx ;;
         Ok (match ns with Some ns => some_str (join [46] ns) | None => None end)
    else Ok None
  end.
(** 78-84 *)
Definition cmd_of (idx : list (list N * list N)) (k : fkind) (raw : list val) : res (option (list N)) :=
  match command_at k with
  | None => Ok None
  | Some at_ =>
    off <- calc_offset at_ raw ;; link <- py_nth raw off ;;
    if truthy link
    then h <- vget link 0 ;; n <- int_of_val h ;;
         if (n =? 0)%Z then Ok None else id <- id_str h ;; Ok (match dget id idx with Some s => some_str s | None => None end)
    else Ok None
  end.
(** 51-54, 86-87, 94 *)
Definition name_of (k : fkind) (raw : list val) : res (list N) :=
  off <- calc_offset (name_at k) raw ;; v <- py_nth raw off ;;
  match v with VStr (c :: s) => Ok (str_decode (c :: s)) | _ => Err ExtExc end.
(** Group.py 28-29, Table.py 39: the path of the children *)
Definition kids_path (k : fkind) (path name : list N) : list N :=
  match k with FGroup => str_replace s_includr s_include (elem_path path name) | _ => elem_path path name end.

Section Dec.
Variable props : list (list N * pnode).
Variable cmds : list (list N * list N).
Notation dict := (list (list N * edata)).

(** 106-134 decode_list, below the count *)
Fixpoint dec_pairs (f : fkind -> list val -> dict -> res (fitem * list val * dict)) (n : nat) (l : list val) (d : dict) : res (list fitem * dict) :=
  match n with
  | O => Ok ([], d)
  | S n => match l with
           | VStr ty :: VList el :: rest =>
             match kind_by kind_uuid ty with
             | None => Err ExtExc
             | Some k => ' (x, _, d) <- f k el d ;; ' (xs, d) <- dec_pairs f n rest d ;; Ok (x :: xs, d)
             end
           | _ => Err IndexError
           end
  end.
Definition dec_list (f : fkind -> list val -> dict -> res (fitem * list val * dict)) (idx : Z) (raw : list val) (d : dict) : res (option (list fitem) * list val * dict) :=
  c <- py_nth raw idx ;; n <- int_of_val c ;;
  if (n =? 0)%Z then Ok (None, raw, d)
  else if (n <? 0)%Z || (idx <? 0)%Z then Err ExtExc
  else let i := Z.to_nat idx in let m := Z.to_nat n in
       ' (xs, d) <- dec_pairs f m (skipn (S i) raw) d ;;
       Ok (Some xs, firstn i raw ++ VStr kids_mark :: skipn (S i + 2 * m) raw, d).
(** 48-103 decode, Group.py 15-32, Table.py 17-41.  [fuel] bounds the nesting. *)
Fixpoint dec_elem (fuel : nat) (path : list N) (k : fkind) (raw : list val) (d : dict) : res (fitem * list val * dict) :=
  match fuel with
  | O => Err Timeout
  | S fuel =>
    _ <- check_size k raw ;;
    name <- name_of k raw ;; p <- prop_of props k raw ;; c <- cmd_of cmds k raw ;;
    match kids_at k with
    | None => Ok (FItem name k None, raw, dset (elem_path path name) (mkedata raw p c) d)
    | Some at_ =>
      idx <- calc_offset at_ raw ;;
      ' (kids, raw', d) <- dec_list (dec_elem fuel (kids_path k path name)) idx raw d ;;
      Ok (FItem name k kids, raw', dset (elem_path path name) (mkedata raw' p c) d)
    end
  end.
End Dec.

(** FormElements4.py 86-97 *)
Definition elem_index (root : list val) : res Z :=
  off <- calc_offset [(18, 2); (3, 0)]%Z root ;; c <- py_nth root off ;; n <- int_of_val c ;; Ok (off + n + 1)%Z.
Definition root_of (raw : list val) : res (list val) := v <- vnth 1 raw ;; vlist v.
(** nesting of lists *)
Fixpoint vdepth (v : val) : nat := match v with VList l => S (fold_right (fun x n => Nat.max (vdepth x) n) 0%nat l) | _ => 0%nat end.
(** 22-29, 63-84 *)
Definition elems_decode (parent : option (list N)) (raw : list val) : res (list val * felems) :=
  let (raw, props) := list_dec (prop_dec parent) 3 raw in
  let (raw, cmds) := list_dec cmd_dec 5 raw in
  root <- root_of raw ;; idx <- elem_index root ;;
  pidx <- index_props props ;; cidx <- index_commands cmds ;;
  ' (tree, root, d) <- dec_list (dec_elem pidx cidx (vdepth (VList root)) []) idx root [] ;;
  let raw := set_nth 1 (VList root) raw in
  let (raw, params) := list_dec par_dec 4 raw in
  Ok (raw, mkelems params props cmds (Some (match tree with Some t => t | None => [] end)) (sort_by (fun x y => str_leb (fst x) (fst y)) d)).

(** ** Build *)
Section Enc.
Variable props : list (list N * (val * option val)).
Variable cmds : list (list N * val).
Variable data : list (list N * edata).
(** l[i] = v *)
Definition zput (i : Z) (v : val) (l : list val) : res (list val) := if (i <? 0)%Z then Err IndexError else Header.vset (Z.to_nat i) v l.
Definition has (p s : list N) : bool := match find_sub p s with Some _ => true | None => false end.
(** FormElement.py 190-219 *)
Definition relink_prop (k : fkind) (e : edata) (raw : list val) : res (list val) :=
  match e_prop e with
  | None | Some [] => Ok raw
  | Some p =>
    match prop_at k with
    | None => Ok raw
    | Some at_ =>
      off <- calc_offset at_ raw ;; link <- py_nth raw off ;;
      if truthy link then
        match dget p props with
        | None => Err ExtExc
        | Some (id, sub) =>
          if negb (truthy id) && match sub with None => true | _ => false end then Err ExtExc
          else
            h <- vget link 0 ;; n <- int_of_val h ;;
            if (n =? 1)%Z then match sub with None => link <- Payload.vset link 1 (VList [id]) ;; zput off link raw | Some _ => Err ExtExc end
            else if (n =? 2)%Z
            then ' (a, b) <- match sub with Some c => Ok (id, c) | None => a <- vget id 0 ;; b <- vget id 1 ;; Ok (a, b) end ;;
                 link <- Payload.vset link 1 (VList [a]) ;; link <- Payload.vset link 2 (VList [b]) ;; zput off link raw
            else if (n =? 0)%Z then Ok raw else Err NotImplementedError
        end
      else Ok raw
    end
  end.
(** 220-237 *)
Definition relink_cmd (k : fkind) (e : edata) (raw : list val) : res (list val) :=
  match e_cmd e with
  | None | Some [] => Ok raw
  | Some c =>
    match command_at k with
    | None => Ok raw
    | Some at_ =>
      off <- calc_offset at_ raw ;; link <- py_nth raw off ;;
      if truthy link then
        match dget c cmds with
        | Some v => if truthy v then zput off v raw else Err ExtExc
        | None => Err ExtExc
        end
      else Ok raw
    end
  end.
(** 174-243 encode *)
Definition base_enc (k : fkind) (path name : list N) : res (list val) :=
  let key := elem_path path name in
  match dget key data with
  | None => Err ExtExc
  | Some e =>
    let r := has s_includr key in
    raw <- (if r then off <- calc_offset (name_at k) (e_raw e) ;; zput off (VStr (str_encode name)) (e_raw e) else Ok (e_raw e)) ;;
    if has s_include key || r then raw <- relink_prop k e raw ;; relink_cmd k e raw else Ok raw
  end.
(** Group.py 45-46, Table.py 58 *)
Definition back_path (k : fkind) (path name : list N) : list N :=
  match k with
  | FGroup => elem_path path (if starts s_includr name then s_include ++ skipn 8 name else name)
  | _ => elem_path path name
  end.
(** 145-172 encode_list: the list with the number and the children at [idx] *)
Definition put_kids (idx : Z) (ys : list (fkind * list val)) (raw : list val) : res (list val) :=
  raw <- zput idx (VStr (str_of_int (Z.of_nat (length ys)))) raw ;;
  let i := S (Z.to_nat idx) in
  Ok (firstn i raw ++ flat_map (fun y : fkind * list val => [VStr (kind_uuid (fst y)); VList (snd y)]) ys ++ skipn i raw).
Definition item_kind (x : fitem) : fkind := match x with FItem _ k _ => k end.
(** Group.py 34-52, Table.py 43-63 *)
Fixpoint enc_elem (path : list N) (x : fitem) {struct x} : res (list val) :=
  match x with
  | FItem name k child =>
    raw <- base_enc k path name ;;
    match kids_at k, child with
    | Some at_, Some l =>
      match l with
      | [] => Ok raw
      | _ =>
        idx <- calc_offset at_ raw ;;
        rs <- (fix go (l : list fitem) : res (list (fkind * list val)) :=
                 match l with [] => Ok [] | x :: r => z <- enc_elem (back_path k path name) x ;; zs <- go r ;; Ok ((item_kind x, z) :: zs) end) l ;;
        put_kids idx rs raw
      end
    | _, _ => Ok raw
    end
  end.
Definition enc_items (path : list N) (l : list fitem) : res (list (fkind * list val)) := mapm (fun x => z <- enc_elem path x ;; Ok (item_kind x, z)) l.
End Enc.

(** FormElements4.py 99-135 *)
Definition elems_encode (parent : option (list N)) (fe : felems) (raw : list val) : res (list val) :=
  ' (raw, cmds) <- list_enc cmd_enc 5 (fe_commands fe) raw ;;
  ' (raw, props) <- list_enc (prop_enc parent) 3 (fe_props fe) raw ;;
  let pidx := names_props props in
  cidx <- names_commands cmds ;;
  root <- root_of raw ;; idx <- elem_index root ;; c <- py_nth root idx ;;
  raw <- (if is_str c kids_mark
          then match fe_tree fe with
               | Some t => rs <- enc_items pidx cidx (fe_data fe) [] t ;; root <- put_kids idx rs root ;; Header.vset 1 (VList root) raw
               | None => Err ExtExc
               end
          else Ok raw) ;;
  ' (raw, _) <- list_enc par_enc 4 (fe_params fe) raw ;;
  Ok raw.
