(** Model of the module text stored inside a managed form:
    /repo/src/v8unpack/MetaDataObject/Form/FormCore.py 18-19, 94-148, 311-325, 349-355.
    A form is the Python list decoded from the brace file <uuid>.0. *)
From Coq Require Import String.
From Verif Require Import PyBase PyInt Brace Header.
Set Implicit Arguments.
Open Scope list_scope.
Open Scope N_scope.

Definition code_mark : list N := Eval vm_compute in u "Код в отдельном файле"%string.
Definition t0 : list N := Eval vm_compute in u "0"%string.
Definition t1 : list N := Eval vm_compute in u "1"%string.
Definition t2 : list N := Eval vm_compute in u "2"%string.
Definition t3 : list N := Eval vm_compute in u "3"%string.
Definition t4 : list N := Eval vm_compute in u "4"%string.
Definition t22 : list N := Eval vm_compute in u "22"%string.
Definition t49 : list N := Eval vm_compute in u "49"%string.

(** line 105: two quotes are replaced by one, leftmost and non-overlapping *)
Fixpoint undouble (s : list N) : list N :=
  match s with
  | [] => []
  | c :: r => match r with
              | d :: r' => if (c =? QUOTE) && (d =? QUOTE) then QUOTE :: undouble r' else c :: undouble r
              | [] => [c]
              end
  end.
(** line 320: each quote is replaced by two *)
Definition double (s : list N) : list N := flat_map (fun c => if c =? QUOTE then [QUOTE; QUOTE] else [c]) s.

Definition is_str (v : val) (s : list N) : bool := match v with VStr x => str_eqb x s | _ => false end.
Definition is_in (v : val) (l : list (list N)) : bool := existsb (is_str v) l.

(** lines 349-355 get_last_level_array, together with an update of the array found.  An empty
    list raises IndexError (data[-1]). *)
Fixpoint on_last {A} (f : list val -> res (A * list val)) (v : val) : res (A * val) :=
  match v with
  | VList l =>
    ' (a, l') <- (fix go (pre : list val) (l : list val) : res (A * list val) :=
        match l with
        | [] => Err IndexError
        | [x] => match x with
                 | VList _ => ' (a, x') <- on_last f x ;; Ok (a, pre ++ [x'])
                 | _ => f (pre ++ [x])
                 end
        | x :: rest => go (pre ++ [x]) rest
        end) [] l ;;
    Ok (a, VList l')
  | _ => Err TypeError
  end.

(** l[-k] for 1 <= k *)
Definition vneg (k : nat) (l : list val) : res val := if (length l <? k)%nat then Err IndexError else vnth (length l - k) l.

(** lines 129-148: on the last level array; [short]: len_form_0 < 10 *)
Definition getset_level (short : bool) (new : list N) (l : list val) : res (list N * list val) :=
  h <- vnth 0 l ;;
  if short && is_in h [t49; t4] then Ok ([], l)
  else if (10 <? length l)%nat && is_in h [t22; t1]
  then a <- vneg 1 l ;; b <- vneg 2 l ;;
       if is_str a t0 && is_str b t0
       then c <- vneg 8 l ;;
            match c with
            | VStr code => l' <- vset (length l - 8) (VStr new) l ;; Ok (code, l')
            | _ => Err ExtExc
            end
       else Ok ([], l)
  else Ok ([], l).

(** lines 112-148 getset_form_code with a new value: the old code (raw) and the changed form.
    form[0] may be a str (Python then compares its characters). *)
Definition getset_form_code (new : list N) (form : list val) : res (list N * list val) :=
  f0 <- vnth 0 form ;;
  let last n := ' (c, v) <- on_last (getset_level (n <? 10)%nat new) (VList form) ;; l <- vlist v ;; Ok (c, l) in
  match f0 with
  | VNone => Err TypeError
  | VStr s =>
    if (2 <? length s)%nat && match s with c :: _ => existsb (str_eqb [c]) [t4; t3; t2] | [] => false end
    then Err TypeError                                          (* a str has no item assignment *)
    else last (length s)
  | VList l0 =>
    if (2 <? length l0)%nat && match l0 with h :: _ => is_in h [t4; t3; t2] | [] => false end
    then c <- vnth 2 l0 ;;
         match c with
         | VStr code => l0' <- vset 2 (VStr new) l0 ;; form' <- vset 0 (VList l0') form ;; Ok (code, form')
         | _ => Err ExtExc
         end
    else last (length l0)
  end.

(** lines 94-110 decode_form0_from_file: the code and the form kept in the sources *)
Definition decode_form (form : list val) : res (list N * list val) :=
  ' (raw, form') <- getset_form_code code_mark form ;;
  Ok (undouble (str_decode raw), form').
(** lines 314-325 encode_data for a managed form; IndexError is swallowed *)
Definition encode_form (code : list N) (form : list val) : res (list val) :=
  match getset_form_code (str_encode (double code)) form with
  | Ok (_, form') => Ok form'
  | Err IndexError => Ok form
  | Err e => Err e
  end.
