(** Model of the object header functions: /repo/src/v8unpack/helper.py 115-154, 162-175 and
    MetaObject.set_product_comment (/repo/src/v8unpack/MetaObject/__init__.py 369-381).
    A header is the Python list decoded from a brace file: [Brace.val].
    Simplification: indexing a string where the code expects a list (or slicing a list where
    it expects a string) is an error here; Python would go on with characters/sub-lists. *)
From Coq Require Import String.
From Verif Require Import PyBase PyInt Brace.
Set Implicit Arguments.
Open Scope list_scope.
Open Scope Z_scope.

Definition in_separate_file : list N := Eval vm_compute in u "в отдельном файле"%string.
Definition ver_mark : list N := Eval vm_compute in u "ver:"%string.

Definition vnth (i : nat) (l : list val) : res val :=
  match nth_error l i with Some v => Ok v | None => Err IndexError end.
Definition vstr (v : val) : res (list N) := match v with VStr s => Ok s | _ => Err TypeError end.
Definition vlist (v : val) : res (list val) := match v with VList l => Ok l | _ => Err TypeError end.
(** l[i] = v *)
Fixpoint vset (i : nat) (v : val) (l : list val) : res (list val) :=
  match l, i with
  | [], _ => Err IndexError
  | _ :: l', O => Ok (v :: l')
  | x :: l', S i' => r <- vset i' v l' ;; Ok (x :: r)
  end.

(** helper.py 162-163, 174-175 *)
Definition str_encode (s : list N) : list N := QUOTE :: s ++ [QUOTE].
Definition str_decode (s : list N) : list N := removelast (tl s).

Record hobj := mkhobj { h_uuid : list N; h_name : list N; h_name2 : list (list N * list N); h_comment : list N }.

(** helper.py 131-133: the locale names *)
Fixpoint read_name2 (locs : list val) (n : nat) (i : nat) (acc : list (list N * list N)) : res (list (list N * list N)) :=
  match n with
  | O => Ok acc
  | S n' =>
    k <- vnth (i * 2 + 1) locs ;; ks <- vstr k ;;
    v <- vnth (i * 2 + 2) locs ;; vs <- vstr v ;;
    read_name2 locs n' (S i) (dset (str_decode ks) (str_decode vs) acc)
  end.

(** helper.py 115-143 decode_header.  [uuid_valid] is the test made by uuid.UUID(); [prefix]
    is options.get('prefix', '').  Returns the decoded object and the changed header. *)
Definition decode_header (uuid_valid : list N -> bool) (prefix : list N) (header : list val) (separate : bool)
    : res (hobj * list val) :=
  h1 <- vnth 1 header ;; l1 <- vlist h1 ;; uv <- vnth 2 l1 ;; uuid <- vstr uv ;;
  if negb (uuid_valid uuid) then Err ValueError else
  h2 <- vnth 2 header ;; s2 <- vstr h2 ;;
  let name0 := str_decode s2 in
  ' (name, header) <- (if negb (length prefix =? 0)%nat && starts prefix name0
    then let name := skipn (length prefix) name0 in
         hd <- vset 2 (VStr (str_encode name)) header ;; Ok (name, hd)
    else Ok (name0, header)) ;;
  h3 <- vnth 3 header ;; l3 <- vlist h3 ;; c <- vnth 0 l3 ;; cs <- vstr c ;;
  count <- int_of_str cs ;;
  name2 <- read_name2 l3 (Z.to_nat count) 0 [] ;;
  h4 <- vnth 4 header ;; s4 <- vstr h4 ;;
  header <- (if separate
    then h1 <- vnth 1 header ;; l1 <- vlist h1 ;; l1' <- vset 2 (VStr in_separate_file) l1 ;; vset 1 (VList l1') header
    else Ok header) ;;
  Ok (mkhobj uuid name name2 (str_decode s4), header).

(** helper.py 146-154 encode_header.  [options] is the option dictionary reduced to what the
    function looks at: [None] for a falsy (empty or absent) dictionary, else the prefix. *)
Definition is_own (header : list val) : res bool :=
  if (length header <? 6)%nat then Ok true
  else h5 <- vnth 5 header ;; Ok match h5 with VStr s => str_eqb s [48%N] | _ => false end.
Definition encode_header (options : option (list N)) (parent_id : list N) (obj : hobj) (header : list val) : res (list val) :=
  h1 <- vnth 1 header ;; l1 <- vlist h1 ;; l1' <- vset 2 (VStr (h_uuid obj)) l1 ;; header <- vset 1 (VList l1') header ;;
  match options with
  | None => Ok header
  | Some prefix =>
    if mem_ch 47%N parent_id then Ok header
    else own <- is_own header ;;
         if own then vset 2 (VStr (str_encode (prefix ++ h_name obj))) header else Ok header
  end.

(** MetaObject/__init__.py 369-381 set_product_comment on the comment text (between the
    quotes); [opt] is bool(options.get('product_version')). *)
Definition set_product_comment (opt : bool) (product_version : list N) (product : list N) (comment : list N) : list N :=
  if (length product_version =? 0)%nat then comment
  else match find_sub ver_mark comment with
       | None => comment
       | Some i =>
         if opt then
           join [58%N] ([firstn (i + 3) comment; product_version] ++ (if (length product =? 0)%nat then [] else [product]))
         else comment
       end.
