(** Model of the merging of index dictionaries: /repo/src/v8unpack/helper.py 416-501. *)
From Coq Require Import String.
From Verif Require Import PyBase Json.
Set Implicit Arguments.
Open Scope list_scope.
Open Scope Z_scope.

(** helper.py 427-468 _update_dict for two dictionaries.  The base is returned instead of being
    changed in place; copy.deepcopy is the identity on values without sharing.  Every
    exception leaves the function as an ExtException. *)
Fixpoint update_value (new : json) (base : jdict) : res jdict :=
  match new with
  | JDict nd =>
    (fix go (nd : list (list N * json)) (base : jdict) : res jdict :=
       match nd with
       | [] => Ok base
       | (element, v) :: rest =>
         v' <- match dget element base with
               | None | Some JNull => Ok v
               | Some old =>
                 match v with
                 | JDict _ => match old with
                              | JDict od => r <- update_value v od ;; Ok (JDict r)
                              | _ => Err ExtExc
                              end
                 | JList l => match old with JList ol => Ok (JList (ol ++ l)) | _ => Err ExtExc end
                 | _ => Ok v
                 end
               end ;;
         go rest (dset element v' base)
       end) nd base
  | _ => Ok base
  end.
Definition _update_dict (base new : jdict) : res jdict := update_value (JDict new) base.

(** helper.py 416-424 update_dict( *args ); without arguments it returns None *)
Fixpoint update_fold (result : jdict) (args : list jdict) : res jdict :=
  match args with
  | [] => Ok result
  | a :: rest => r <- _update_dict result a ;; update_fold r rest
  end.
Definition update_dict (args : list jdict) : res jdict :=
  match args with
  | [] => Err ValueError
  | [a] => _update_dict [] a
  | a :: rest => update_fold a rest
  end.

Definition s_index_json : list N := Eval vm_compute in u "index.json"%string.

(** iterating a JSON value in a for loop; numbers, booleans and None are not iterable *)
Definition iterate (j : json) : res (list json) :=
  match j with
  | JList l => Ok l
  | JStr s => Ok (map (fun c => JStr [c]) s)
  | JDict d => Ok (map (fun e => JStr (fst e)) d)
  | _ => Err TypeError
  end.

(** helper.py 484-501 check_index and 471-481 load_json.  [load] is the content of each JSON file
    that exists and holds a dictionary (any other case is an error); the None returned for an
    empty file name is [Ok None]. *)
Fixpoint load_all (load : list N -> option jdict) (names : list json) : res (list jdict) :=
  match names with
  | [] => Ok []
  | JStr n :: rest => match load n with
                      | None => Err ExtExc
                      | Some d => r <- load_all load rest ;; Ok (d :: r)
                      end
  | _ :: _ => Err ExtExc
  end.
Definition check_index (load : list N -> option jdict) (index_filename : list N) : res (option jdict) :=
  match index_filename with
  | [] => Ok None
  | _ =>
    match load index_filename with
    | None => Err ExtExc
    | Some main =>
      let sub := dget s_index_json main in
      let main := ddel s_index_json main in
      subs <- match sub with
              | None => Ok []
              | Some j => if jtruthy j then names <- iterate j ;; load_all load names else Ok []
              end ;;
      r <- update_dict (subs ++ [main]) ;; Ok (Some r)
    end
  end.
