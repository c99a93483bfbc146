(** JSON texts of the Python runtime: json.dump(..., ensure_ascii=False, indent=2) of nested
    lists of strings and nulls, and json.load of any text.  Models only the Python standard
    library (json.encoder, json.scanner), not /repo.  Not modelled: the recursion limit, the limit
    on the number of digits of an integer; numbers stay literals. *)
From Verif Require Import PyBase PyText Brace.
Open Scope list_scope.
Open Scope N_scope.

Inductive jval :=
| Jnull | Jbool (b : bool) | Jnum (lit : list N) | Jstr (s : list N)
| Jlist (l : list jval) | Jobj (d : list (list N * jval)).

Definition BSL : N := 92.
Definition JCOLON : N := 58.
Definition JOPEN : N := 91.
Definition JCLOSE : N := 93.

(** ** json.dump *)
Definition hexdigit (d : N) : N := if d <? 10 then 48 + d else 87 + d.
(** json.encoder.ESCAPE_DCT, py_encode_basestring *)
Definition jescape (c : N) : list N :=
  if c =? QUOTE then [BSL; QUOTE]
  else if c =? BSL then [BSL; BSL]
  else if c =? 10 then [BSL; 110]
  else if c =? 13 then [BSL; 114]
  else if c =? 9 then [BSL; 116]
  else if c =? 12 then [BSL; 102]
  else if c =? 8 then [BSL; 98]
  else if c <? 32 then [BSL; 117; 48; 48; hexdigit (c / 16); hexdigit (c mod 16)]
  else [c].
Definition jstring (s : list N) : list N := QUOTE :: flat_map jescape s ++ [QUOTE].
Definition jnull : list N := [110; 117; 108; 108].
(** newline and indentation *)
Definition jnl (ind : nat) : list N := LF :: repeat 32 (2 * ind)%nat.
Fixpoint jdump (ind : nat) (v : val) : list N :=
  match v with
  | VNone => jnull
  | VStr s => jstring s
  | VList [] => [JOPEN; JCLOSE]
  | VList (x :: l) =>
    JOPEN :: jnl (S ind) ++ jdump (S ind) x ++
    (fix items (l : list val) : list N :=
       match l with
       | [] => jnl ind ++ [JCLOSE]
       | y :: r => COMMA :: jnl (S ind) ++ jdump (S ind) y ++ items r
       end) l
  end.

(** ** json.load *)
Definition jws (c : N) : bool := (c =? 32) || (c =? 9) || (c =? 10) || (c =? 13).
Fixpoint jskip (s : list N) : list N := match s with c :: t => if jws c then jskip t else s | [] => [] end.
Definition unescape (c : N) : option N :=
  if c =? QUOTE then Some QUOTE else if c =? BSL then Some BSL else if c =? 47 then Some 47
  else if c =? 98 then Some 8 else if c =? 102 then Some 12 else if c =? 110 then Some 10
  else if c =? 114 then Some 13 else if c =? 116 then Some 9 else None.
Definition hexval (c : N) : option N :=
  if (48 <=? c) && (c <=? 57) then Some (c - 48)
  else if (97 <=? c) && (c <=? 102) then Some (c - 87)
  else if (65 <=? c) && (c <=? 70) then Some (c - 55) else None.
Definition hex4 (a b c d : N) : option N :=
  match hexval a, hexval b, hexval c, hexval d with
  | Some a, Some b, Some c, Some d => Some (((a * 16 + b) * 16 + c) * 16 + d)
  | _, _, _, _ => None
  end.
Definition jcons (c : N) (r : option (list N * list N)) : option (list N * list N) :=
  match r with Some (s, t) => Some (c :: s, t) | None => None end.
(** scanstring (strict): the text after the opening quote *)
Fixpoint jchars (s : list N) : option (list N * list N) :=
  match s with
  | [] => None
  | c :: t =>
    if c =? QUOTE then Some ([], t)
    else if c =? BSL then
      match t with
      | [] => None
      | e :: t2 =>
        match unescape e with
        | Some x => jcons x (jchars t2)
        | None => if e =? 117 then
                    match t2 with
                    | h1 :: h2 :: h3 :: h4 :: t6 => match hex4 h1 h2 h3 h4 with Some v => jcons v (jchars t6) | None => None end
                    | _ => None
                    end
                  else None
        end
      end
    else if c <? 32 then None
    else jcons c (jchars t)
  end.
(** escaped surrogate pairs are joined *)
Fixpoint jjoin (s : list N) : list N :=
  match s with
  | a :: t =>
    match t with
    | b :: t2 => if (55296 <=? a) && (a <? 56320) && (56320 <=? b) && (b <? 57344)
                 then 65536 + (a - 55296) * 1024 + (b - 56320) :: jjoin t2 else a :: jjoin t
    | [] => [a]
    end
  | [] => []
  end.
Definition jscan (s : list N) : option (list N * list N) :=
  match jchars s with Some (x, r) => Some (jjoin x, r) | None => None end.

Definition digit (c : N) : bool := (48 <=? c) && (c <=? 57).
Fixpoint digits (s : list N) : list N * list N :=
  match s with c :: t => if digit c then let (a, b) := digits t in (c :: a, b) else ([], s) | [] => ([], []) end.
(** _match_number: sign, integer part, fraction and exponent; the last two only if complete *)
Definition jint (s : list N) : option (list N * list N) :=
  match s with
  | c :: t => if c =? 48 then Some ([c], t) else if digit c then Some (digits s) else None
  | [] => None
  end.
Definition jfrac (s : list N) : list N * list N :=
  match s with
  | c :: t => if c =? 46 then match digits t with ([], _) => ([], s) | (a, b) => (c :: a, b) end else ([], s)
  | [] => ([], [])
  end.
Definition jexp (s : list N) : list N * list N :=
  match s with
  | c :: t =>
    if (c =? 101) || (c =? 69) then
      let (sg, t1) := match t with d :: t2 => if (d =? 43) || (d =? 45) then ([d], t2) else ([], t) | [] => ([], t) end in
      match digits t1 with ([], _) => ([], s) | (a, b) => (c :: sg ++ a, b) end
    else ([], s)
  | [] => ([], [])
  end.
Definition jnumber (s : list N) : option (jval * list N) :=
  let (sg, s1) := match s with c :: t => if c =? 45 then ([c], t) else ([], s) | [] => ([], []) end in
  match jint s1 with
  | None => None
  | Some (i, s2) => let (f, s3) := jfrac s2 in let (e, s4) := jexp s3 in Some (Jnum (sg ++ i ++ f ++ e), s4)
  end.

Definition w_true : list N := [116; 114; 117; 101].
Definition w_false : list N := [102; 97; 108; 115; 101].
Definition w_nan : list N := [78; 97; 78].
Definition w_inf : list N := [73; 110; 102; 105; 110; 105; 116; 121].
Definition w_ninf : list N := 45 :: w_inf.
Definition jword (s : list N) : option (jval * list N) :=
  if starts jnull s then Some (Jnull, skipn 4 s)
  else if starts w_true s then Some (Jbool true, skipn 4 s)
  else if starts w_false s then Some (Jbool false, skipn 5 s)
  else if starts w_nan s then Some (Jnum w_nan, skipn 3 s)
  else if starts w_inf s then Some (Jnum w_inf, skipn 8 s)
  else if starts w_ninf s then Some (Jnum w_ninf, skipn 9 s)
  else jnumber s.

(** scan_once at the start of a value; items of a list after white space; members of an object
    after white space *)
Fixpoint jvalue (fuel : nat) (s : list N) {struct fuel} : option (jval * list N) :=
  match fuel with
  | O => None
  | S k =>
    match s with
    | [] => None
    | c :: t =>
      if c =? QUOTE then match jscan t with Some (x, r) => Some (Jstr x, r) | None => None end
      else if c =? JOPEN then
        match jskip t with
        | [] => None
        | d :: r => if d =? JCLOSE then Some (Jlist [], r)
                    else match jitems k (d :: r) with Some (l, r2) => Some (Jlist l, r2) | None => None end
        end
      else if c =? OPEN then
        match jskip t with
        | [] => None
        | d :: r => if d =? CLOSE then Some (Jobj [], r)
                    else match jmembers k (d :: r) with Some (l, r2) => Some (Jobj l, r2) | None => None end
        end
      else jword s
    end
  end
with jitems (fuel : nat) (s : list N) {struct fuel} : option (list jval * list N) :=
  match fuel with
  | O => None
  | S k =>
    match jvalue k s with
    | None => None
    | Some (v, r) =>
      match jskip r with
      | [] => None
      | c :: r2 =>
        if c =? JCLOSE then Some ([v], r2)
        else if c =? COMMA then match jitems k (jskip r2) with Some (l, r3) => Some (v :: l, r3) | None => None end
        else None
      end
    end
  end
with jmembers (fuel : nat) (s : list N) {struct fuel} : option (list (list N * jval) * list N) :=
  match fuel with
  | O => None
  | S k =>
    match s with
    | [] => None
    | c :: t =>
      if c =? QUOTE then
        match jscan t with
        | None => None
        | Some (key, r) =>
          match jskip r with
          | [] => None
          | c2 :: r2 =>
            if c2 =? JCOLON then
              match jvalue k (jskip r2) with
              | None => None
              | Some (v, r3) =>
                match jskip r3 with
                | [] => None
                | c4 :: r4 =>
                  if c4 =? CLOSE then Some ([(key, v)], r4)
                  else if c4 =? COMMA then match jmembers k (jskip r4) with Some (l, r5) => Some ((key, v) :: l, r5) | None => None end
                  else None
                end
              end
            else None
          end
        end
      else None
    end
  end.
(** json.loads: a byte order mark is an error, nothing but white space may follow the value.
    Duplicate keys of an object are kept here. *)
Definition jload (s : list N) : option jval :=
  match s with
  | 65279 :: _ => None
  | _ => match jvalue (S (2 * length s)) (jskip s) with
         | Some (v, r) => match jskip r with [] => Some v | _ => None end
         | None => None
         end
  end.
