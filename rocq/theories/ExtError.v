(** Model of the error wrapper: /repo/src/v8unpack/ext_exception.py 16-126.
    The traceback texts are left out; everything else of the state is modelled. A class is
    its name; [base_cls] is ExtException itself. *)
From Coq Require Import String.
From Verif Require Import PyBase.
Set Implicit Arguments.
Open Scope list_scope.
Open Scope Z_scope.

Definition base_cls : list N := Eval vm_compute in u "ExtException"%string.
Definition unknown_error : list N := Eval vm_compute in u "Unknown Error"%string.

(** a stack entry: dict(action=..., message=..., detail=...) lines 116-120 *)
Record sentry := mkse { se_action : option (list N); se_message : option (list N); se_detail : option (list N) }.

Record ext := mkext {
  x_cls : list N;
  x_code : option Z; x_message : option (list N); x_detail : option (list N);
  x_action : option (list N); x_dump : list (list N * list N); x_stack : list sentry; x_new_msg : bool }.

(** truthiness of an optional string *)
Definition truthy (s : option (list N)) : bool := match s with Some (_ :: _) => true | _ => false end.
Definition same_action (a b : option (list N)) : bool :=
  match a, b with Some x, Some y => str_eqb x y | None, None => true | _, _ => false end.

(** lines 106-126 add_parent_to_stack; the receiver's stack is passed in and returned *)
Definition last_action (st : list sentry) : option (option (list N)) :=
  match rev st with [] => None | e :: _ => Some (se_action e) end.
Definition add_parent_to_stack (stack : list sentry) (parent : ext) : list sentry :=
  let stack := stack ++ x_stack parent in
  if negb (truthy (x_action parent))
     || match last_action stack with Some a => same_action a (x_action parent) | None => false end
  then stack
  else stack ++ [mkse (x_action parent)
                   (if x_new_msg parent then x_message parent else None)
                   (if x_new_msg parent && truthy (x_detail parent) then x_detail parent else None)].

(** the keyword arguments of a wrap; line 45 *)
Record kw := mkkw { k_cls : list N; k_code : option Z; k_message : option (list N); k_detail : option (list N);
                    k_action : option (list N); k_dump : list (list N * list N) }.

Fixpoint merge_dump (mine parent : list (list N * list N)) : list (list N * list N) :=
  match parent with
  | [] => mine
  | (k, v) :: rest => merge_dump (match dget k mine with None => dset k v mine | Some _ => mine end) rest
  end.

(** lines 22-43 and 45-95 for parent an ExtException.  [cls_message] gives the class attribute
    _message.  An empty dictionary given as dump is the same as None here. *)
Definition wrap (cls_message : list N -> option (list N)) (k : kw) (parent : ext) : ext :=
  let cls := if negb (str_eqb (x_cls parent) base_cls) && match k_message k with None => true | _ => false end
                && str_eqb (k_cls k) base_cls
             then x_cls parent else k_cls k in
  let nomsg := negb (truthy (k_message k)) in
  let message := if nomsg then x_message parent else k_message k in
  let detail := if nomsg then x_detail parent else k_detail k in
  let code := if nomsg then x_code parent else k_code k in
  mkext cls code (if truthy message then message else cls_message cls) detail (k_action k)
        (merge_dump (k_dump k) (x_dump parent)) (add_parent_to_stack [] parent) (truthy (k_message k)).

(** the same for a parent that is another Python exception with text [txt] (lines 79-84); the
    entry of the stack holds the exception class name and text *)
Definition wrap_py (cls_message : list N -> option (list N)) (k : kw) (cls_name txt : list N) : ext :=
  let nomsg := negb (truthy (k_message k)) in
  let message := if nomsg then Some unknown_error else k_message k in
  let detail := if truthy (k_detail k) then k_detail k else Some txt in
  mkext (k_cls k) (k_code k) (if truthy message then message else cls_message (k_cls k)) detail (k_action k) (k_dump k)
        [mkse (if truthy (k_action k) then k_action k else None) (Some cls_name) (Some txt)] (truthy (k_message k)).

Fixpoint wraps (cls_message : list N -> option (list N)) (ks : list kw) (e : ext) : ext :=
  match ks with [] => e | k :: rest => wraps cls_message rest (wrap cls_message k e) end.
