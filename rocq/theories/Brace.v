(** Model of /repo/src/v8unpack/json_container_decoder.py (class JsonContainerDecoder)
    and of helper.brace_file_read / brace_file_write. *)
From Verif Require Import PyBase Utf PyText PyB64.
From Coq Require Import String.
Open Scope list_scope.
Open Scope N_scope.

(** A decoded brace value: Python None, str or list.  JSON numbers and booleans,
    for which encode_object raises NotImplementedError, are not represented. *)
Inductive val := VNone | VStr (s : list N) | VList (l : list val).

Definition COMMA : N := 44.
Definition QUOTE : N := 34.
Definition OPEN : N := 123.
Definition CLOSE : N := 125.

Definition p_base64 : list N := Eval vm_compute in u "#base64:"%string.
Definition pp_base64 : list N := Eval vm_compute in u "##base64:"%string.
Definition hash_base64 : list N := Eval vm_compute in u "#base64"%string.
Definition lit_1 : list N := Eval vm_compute in u "1"%string.

(** ** Encoder *)
(** json_container_decoder.py 327-331: the rest of a '#base64:' leaf after its first 72
    characters, cut in lines of 64.  [fuel] bounds the Python while loop, which runs
    (len - j) / 64 + 1 times. *)
Fixpoint fold_b64 (nl : list N) (fuel : nat) (elem : list N) (j : nat) : list N :=
  match fuel with
  | O => []
  | S k => if (Nat.leb j (List.length elem))
           then nl ++ firstn 64 (skipn j elem) ++ fold_b64 nl k elem (j + 64)%nat
           else []
  end.
(** json_container_decoder.py 343-358: a long leaf that b64decode accepts, in lines of 64 *)
Fixpoint fold_long (nl : list N) (fuel : nat) (elem : list N) : list N :=
  match fuel with
  | O => []
  | S k => if Nat.ltb 64 (List.length elem)
           then firstn 64 elem ++ nl ++ fold_long nl k (skipn 64 elem)
           else elem
  end.

(** json_container_decoder.py 325-362: one string element.  [nl] is "\r\n" in the program. *)
Definition enc_str (nl : list N) (elem : list N) : list N :=
  if starts p_base64 elem then firstn 72 elem ++ fold_b64 nl (S (List.length elem)) elem 72
  else if starts pp_base64 elem then skipn 1 elem
  else if (Nat.ltb 64 (List.length elem)) && b64_accepts elem
       then fold_long nl (S (List.length elem)) elem
       else elem.

Definition is_list (v : val) : bool := match v with VList _ => true | _ => false end.

(** json_container_decoder.py 309-371 encode_object.  The [first] argument only decides
    whether the text starts with a newline; nested objects always do.  params_in_line is
    write-only in the program and left out. *)
Fixpoint enc_val (nl : list N) (v : val) : list N :=
  match v with
  | VNone => []
  | VStr s => enc_str nl s
  | VList l =>
    LF :: OPEN ::
    (fix elems (l : list val) : list N :=
       match l with
       | [] => []
       | x :: t => enc_val nl x ++
                   match t with
                   | [] => if is_list x then [LF] else []
                   | _ => COMMA :: elems t
                   end
       end) l ++ [CLOSE]
  end.
Definition enc_elems (nl : list N) : list val -> list N :=
  fix elems (l : list val) : list N :=
    match l with
    | [] => []
    | x :: t => enc_val nl x ++
                match t with
                | [] => if is_list x then [LF] else []
                | _ => COMMA :: elems t
                end
    end.
Definition enc_obj (nl : list N) (l : list val) : list N := OPEN :: enc_elems nl l ++ [CLOSE].

(** a root element: a list; a str is iterated character by character (len/[] on str); None
    has no len() *)
Definition enc_root1 (nl : list N) (v : val) : res (list N) :=
  match v with
  | VNone => Err TypeError
  | VStr s => Ok (enc_obj nl (map (fun c => VStr [c]) s))
  | VList l => Ok (enc_obj nl l)
  end.
(** json_container_decoder.py 301-307 encode_root_object *)
Fixpoint enc_roots_go (nl : list N) (raw : list N) (data : list val) : res (list N) :=
  match data with
  | [] => Ok raw
  | e :: t => x <- enc_root1 nl e ;;
              enc_roots_go nl ((match raw with [] => [] | _ => raw ++ [COMMA; LF] end) ++ x) t
  end.
Definition CRLF : list N := [CR; LF].
Definition encode_root_object (data : list val) : res (list N) := enc_roots_go CRLF [] data.

(** ** Decoder state *)
Inductive mode := MParam | MBegin | MEnd | MMulti | MB64 | MText.
Definition mode_eqb (a b : mode) : bool :=
  match a, b with
  | MParam, MParam | MBegin, MBegin | MEnd, MEnd | MMulti, MMulti | MB64, MB64 | MText, MText => true
  | _, _ => false
  end.

(** self.data as a list is kept as [roots] (closed root objects) plus [stack], the chain of
    open objects self.path, innermost first, each without its still open child;
    self.current_object is always the top of self.path or None.  [text] is self.data once it
    has been replaced by a str.  [cv] is current_value, [pc] previous_char. *)
Record bst := mkst {
  md : mode; text : list N; roots : list val; stack : list (list val);
  cv : option (list N); pc : option (list N) }.

(** json_container_decoder.py 22-33 and 94-97 *)
Definition init : bst := mkst MParam [] [] [] None None.

Fixpoint close_into (v : list val) (st : list (list val)) : list val :=
  match st with [] => v | t :: r => close_into (t ++ [VList v]) r end.
(** the Python value of self.data while it is a list *)
Definition data_of (s : bst) : list val :=
  match stack s with [] => roots s | t :: r => roots s ++ [VList (close_into t r)] end.

Definition set_md (m : mode) (s : bst) : bst := mkst m (text s) (roots s) (stack s) (cv s) (pc s).
Definition set_cv (v : option (list N)) (s : bst) : bst := mkst (md s) (text s) (roots s) (stack s) v (pc s).
Definition set_text (x : list N) (s : bst) : bst := mkst (md s) x (roots s) (stack s) (cv s) (pc s).

(** json_container_decoder.py 260-265 _add_to_current_value: None += str is a TypeError *)
Definition add_cv (v : list N) (s : bst) : bst :=
  mkst (md s) (text s) (roots s) (stack s)
       (Some (match cv s with Some x => x ++ v | None => v end)) (Some v).

Definition oval (v : option (list N)) : val := match v with Some x => VStr x | None => VNone end.
Definition is_pc (c : N) (s : bst) : bool := match pc s with Some x => str_eqb x [c] | None => false end.

(** json_container_decoder.py 275-280 _end_value; current_object None has no append *)
Definition end_value (s : bst) : res bst :=
  if is_pc CLOSE s
  then Ok (mkst MParam (text s) (roots s) (stack s) (cv s) (Some [COMMA]))
  else match stack s with
       | [] => Err AttributeError
       | t :: r => Ok (mkst MParam (text s) (roots s) ((t ++ [oval (cv s)]) :: r) (Some []) (Some [COMMA]))
       end.

(** json_container_decoder.py 267-273 _end_current_object; in the model a closed object moves
    from the stack into its parent (in Python it was appended to the parent when opened) *)
Definition end_object (s : bst) : res bst :=
  s <- end_value s ;;
  Ok (match stack s with
      | [] => mkst (md s) (text s) (roots s) [] None (Some [CLOSE])
      | [t] => mkst (md s) (text s) (roots s ++ [VList t]) [] None (Some [CLOSE])
      | t :: p :: r => mkst (md s) (text s) (roots s) ((p ++ [VList t]) :: r) None (Some [CLOSE])
      end).

(** json_container_decoder.py 188-229 decode_object; [line] is the whole argument, [i] the
    index of the first character of [rest].  The last branch (raise NotImplemented(...)) is a
    TypeError: the constant is not callable. *)
Definition multi_tail : list N := [COMMA; QUOTE; LF].
Fixpoint dobj (line : list N) (i : N) (rest : list N) (s : bst) : res bst :=
  match rest with
  | [] => Ok s
  | c :: t =>
    match md s with
    | MParam =>
      if c =? COMMA then s <- end_value s ;; dobj line (i + 1) t s
      else if c =? CLOSE then s <- end_object s ;; dobj line (i + 1) t s
      else if c =? QUOTE then
        if ends multi_tail line && (i + 2 =? N.of_nat (List.length line))
        then Ok (add_cv rest (set_md MMulti s))
        else dobj line (i + 1) t (add_cv [c] (set_md MBegin s))
      else if c =? LF then Ok s
      else dobj line (i + 1) t (add_cv [c] s)
    | MBegin =>
      if c =? QUOTE then dobj line (i + 1) t (add_cv [c] (set_md MEnd s))
      else dobj line (i + 1) t (add_cv [c] s)
    | MEnd =>
      if c =? QUOTE then dobj line (i + 1) t (add_cv [c] (set_md MBegin s))
      else if c =? COMMA then s <- end_value s ;; dobj line (i + 1) t s
      else if c =? CLOSE then s <- end_object s ;; dobj line (i + 1) t s
      else dobj line (i + 1) t (add_cv [c] s)
    | _ => Err TypeError
    end
  end.
Definition decode_object (line : list N) (s : bst) : res bst := dobj line 0 line s.

(** self.current_value += x where current_value may be None *)
Definition plus_cv (x : list N) (s : bst) : res bst :=
  match cv s with Some v => Ok (set_cv (Some (v ++ x)) s) | None => Err TypeError end.

(** json_container_decoder.py 230-241 decode_b64_line *)
Definition decode_b64_line (line : list N) (start_pos : nat) (s : bst) : res bst :=
  match find_ch CLOSE line with
  | Some e =>
    s <- plus_cv (skipn start_pos (firstn e line)) s ;;
    s <- end_object (if Nat.eqb start_pos 1
                     then set_cv (match cv s with Some v => Some (35 :: v) | None => None end) s else s) ;;
    decode_object (skipn (e + 1) line) s
  | None => plus_cv (skipn start_pos (removelast line)) s
  end.

(** json_container_decoder.py 133-136 *)
Definition line_b64 (line : list N) (s : bst) : res bst :=
  if str_eqb line [LF] then Ok s else decode_b64_line line 0 s.

Definition is_val_1 (v : val) : bool := match v with VStr x => str_eqb x lit_1 | _ => false end.
(** json_container_decoder.py 155: len(data) == 1 and len(data[0]) == 2 and data[0][0] == '1' *)
Definition big_shape (data : list val) : bool :=
  match data with
  | [VList [x; _]] => is_val_1 x
  | _ => false
  end.

Definition is_single_empty (data : list val) : bool :=
  match data with [VList []] => true | _ => false end.

(** json_container_decoder.py 141-183 _decode_line_read_param *)
Definition line_param (line : list N) (s : bst) : res bst :=
  match line with
  | [] => Err IndexError  (* never: iteration yields no empty line *)
  | c :: rest =>
    if c =? OPEN then
      let s := mkst (md s) (text s) (roots s) ([] :: stack s) (Some []) (pc s) in
      if starts (OPEN :: hash_base64) line then
        if big_shape (data_of s) then Err BigBase64
        else decode_b64_line line 1 (set_md MB64 s)
      else decode_object rest s
    else if c =? CLOSE then
      s <- end_object s ;; decode_object rest s
    else
      let is64 := match cv s with Some v => Nat.eqb (List.length v) 64 | None => false end in
      if (c =? LF) && is64 then Ok (set_md MB64 s)
      else
        match data_of s, cv s with
        | [], None => if str_eqb line [LF] then Ok s
                      else Ok (set_text line (set_md MText s))
        | _, _ =>
          if is_single_empty (data_of s) && match cv s with Some [] => true | _ => false end
          then Ok (set_text (OPEN :: LF :: line) (set_md MText s))
          else if is64 then line_b64 line (set_md MB64 s)
          else Err ExtExc
        end
  end.

(** str.count *)
Fixpoint count_ch (c : N) (s : list N) : nat :=
  match s with [] => O | x :: t => if x =? c then S (count_ch c t) else count_ch c t end.
(** line.count('""'): non-overlapping, from the left *)
Fixpoint count_qq (s : list N) : nat :=
  match s with
  | a :: t =>
    if a =? QUOTE then
      match t with
      | b :: t2 => if b =? QUOTE then S (count_qq t2) else count_qq t2
      | [] => O
      end
    else count_qq t
  | [] => O
  end.

(** json_container_decoder.py 243-249 *)
Definition line_multi (line : list N) (s : bst) : res bst :=
  if negb (Nat.eqb (count_qq line * 2)%nat (count_ch QUOTE line))
  then decode_object line (set_md MBegin s)
  else plus_cv line s.

(** json_container_decoder.py 129-131 decode_line: there is no handler for a line that starts
    in END_READ_STRING_VALUE mode.  Mode END_READ_MULTI_STRING_VALUE is never entered by the
    program and has no counterpart here. *)
Definition decode_line (line : list N) (s : bst) : res bst :=
  match md s with
  | MParam => line_param line s
  | MBegin => decode_object line s
  | MMulti => line_multi line s
  | MB64 => line_b64 line s
  | MText => Ok (set_text (text s ++ line) s)
  | MEnd => Err AttributeError
  end.

(** json_container_decoder.py 98-113: every error except BigBase64 is wrapped *)
Definition wrap_err {A} (r : res A) : res A :=
  match r with Ok a => Ok a | Err BigBase64 => Err BigBase64 | Err _ => Err ExtExc end.
Fixpoint run_lines (ls : list (list N)) (s : bst) : res bst :=
  match ls with
  | [] => Ok s
  | l :: t => s <- wrap_err (decode_line l s) ;; run_lines t s
  end.

Inductive decoded := DText (s : list N) | DTree (data : list val).

(** json_container_decoder.py 114-127 the end of decode_file.  In READ_TEXT_FILE mode the
    mode check raises as well. *)
Definition finish (s : bst) : res decoded :=
  match md s with
  | MParam => match data_of s with [] => Ok (DText []) | d => Ok (DTree d) end
  | _ => Err ExtExc
  end.

(** json_container_decoder.py 94-127 decode_file, on the text the file object yields *)
Definition decode_file (txt : list N) : res decoded :=
  s <- run_lines (lines txt) init ;; finish s.

(** helper.py 34-43 brace_file_write: the content of the file afterwards, and the outcome.
    The file is opened for writing (truncated) before the data is encoded, then opened again by
    write_data (json_container_decoder.py 374-376, 'utf-8-sig').  Folder creation and I/O
    errors are not modelled. *)
Definition brace_file_write (p : platform) (data : list val) (old : list N) : res unit * list N :=
  match encode_root_object data with
  | Err _ => (Err ExtExc, [])
  | Ok raw => match utf8sig_encode (write_nl p raw) with
              | Err _ => (Err ExtExc, [])
              | Ok bs => (Ok tt, bs)
              end
  end.

(** helper.py 16-31 brace_file_read on the bytes of the file; [cp1251] is Python's
    windows-1251 decoder.  The model decodes the whole file before parsing it; Python decodes in
    chunks, so that a parse error in valid UTF-8 before an invalid byte could win. *)
Definition brace_file_read (cp1251 : list N -> res (list N)) (bs : list N) : res decoded :=
  let parse txt := match decode_file (univ_nl txt) with
                   | Ok d => Ok d | Err BigBase64 => Err BigBase64 | Err _ => Err ExtExc end in
  match utf8sig_decode bs with
  | Ok txt => parse txt
  | Err _ => match cp1251 bs with Ok txt => parse txt | Err _ => Err ExtExc end
  end.
