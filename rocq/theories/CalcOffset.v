(** Model of /repo/src/v8unpack/helper.py 518-534 calc_offset. *)
From Verif Require Import PyBase PyInt Brace.
Set Implicit Arguments.
Open Scope list_scope.
Open Scope Z_scope.

(** raw_data[index] with Python's negative indexes *)
Definition py_nth (l : list val) (i : Z) : res val :=
  let j := if i <? 0 then i + zlen l else i in
  if (j <? 0) then Err IndexError
  else match nth_error l (Z.to_nat j) with Some v => Ok v | None => Err IndexError end.

(** int(x) on an element of the decoded data *)
Definition int_of_val (v : val) : res Z :=
  match v with VStr s => int_of_str s | _ => Err TypeError end.

(** the handler of lines 527-532 evaluates raw_data[index] again: an IndexError stays one,
    any other failure becomes an ExtException *)
Fixpoint calc_offset_go (index : Z) (counters : list (Z * Z)) (raw_data : list val) : res Z :=
  match counters with
  | [] => Ok index
  | (counter_index, size) :: rest =>
    let index := index + counter_index in
    if size =? 0 then calc_offset_go index rest raw_data
    else match py_nth raw_data index with
         | Err e => Err e
         | Ok v => match int_of_val v with
                   | Err _ => Err ExtExc
                   | Ok value => calc_offset_go (index + value * size) rest raw_data
                   end
         end
  end.
Definition calc_offset (counters : list (Z * Z)) (raw_data : list val) : res Z := calc_offset_go 0 counters raw_data.
