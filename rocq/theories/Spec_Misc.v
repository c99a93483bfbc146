(** Specification vocabulary for C34-C39; independent of the models. *)
From Verif Require Import PyBase PyInt PyText Brace.
Set Implicit Arguments.
Open Scope list_scope.

(** [sub] occurs in [s] *)
Definition occurs (sub s : list N) : Prop := exists a b, s = a ++ sub ++ b.

(** ** C38: data laid out as records described by counters.
    Every segment is [k-1] arbitrary items, one item holding the number of records, then that
    many records of [size] items; a segment of size 0 is just [k] items. *)
Inductive segment : Z -> Z -> list val -> Prop :=
| seg_skip k items : k = zlen items -> segment k 0 items
| seg_count k size filler n records : k = (1 + zlen filler)%Z -> (size <> 0)%Z -> (0 <= n)%Z ->
    zlen records = (n * size)%Z -> segment k size (filler ++ VStr (str_of_int n) :: records).
Inductive laid_out : list (Z * Z) -> list val -> Prop :=
| lo_nil : laid_out [] []
| lo_cons k size counters seg rest : segment k size seg -> laid_out counters rest ->
    laid_out ((k, size) :: counters) (seg ++ rest).

(** ** C37: the actions met on the way up, a repeated action counted once, missing or empty
    ones left out *)
Fixpoint collapse (last : option (list N)) (acts : list (option (list N))) : list (list N) :=
  match acts with
  | [] => []
  | Some (c :: a) :: rest =>
    match last with
    | Some l => if str_eqb l (c :: a) then collapse last rest else (c :: a) :: collapse (Some (c :: a)) rest
    | None => (c :: a) :: collapse (Some (c :: a)) rest
    end
  | _ :: rest => collapse last rest
  end.

(** The same with the texts: (action, message, detail) of each level. *)
Definition level := (option (list N) * option (list N) * option (list N))%type.
Fixpoint collapse_levels (last : option (list N)) (ls : list level) : list level :=
  match ls with
  | [] => []
  | (Some (c :: a), m, d) :: rest =>
    let again := match last with Some l => str_eqb l (c :: a) | None => false end in
    if again then collapse_levels last rest
    else (Some (c :: a), m, d) :: collapse_levels (Some (c :: a)) rest
  | _ :: rest => collapse_levels last rest
  end.
Definition nonempty (s : option (list N)) : option (list N) := match s with Some (c :: r) => Some (c :: r) | _ => None end.

(** ** C34: the fields of an object header.  A quoted text, and the list of locale names
    [count, "ru", "Имя", "en", "Name", ...] of a header. *)
Definition quoted (s : list N) : val := VStr (34%N :: s ++ [34%N]).
Definition locale_list (locs : list (list N * list N)) (more : list val) : val :=
  VList (VStr (str_of_int (zlen locs)) :: List.concat (List.map (fun kv => [quoted (fst kv); quoted (snd kv)]) locs) ++ more).
