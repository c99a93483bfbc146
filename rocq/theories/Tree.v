(** Model of the extraction of nested objects: /repo/src/v8unpack/decoder.py 80-106 (Decoder.decode,
    decode_include) with helper.py 193-210 (run_in_pool), and of the folders that a build finds
    (MetaObject/__init__.py 191-219 encode_includes, encode_get_include_obj).  The build loop is in EncodeLoop.v.

    What a class does with an object is a parameter: [dec] reads an object with a file of its own (its type
    and identifier are given) and gives its name, the content of its source folder and its included objects
    by type; [rd] is what a build reads in a source folder: the name and the identifier, None if the folder
    has no <type>.json and <type>.id.json. *)
From Coq Require Import String.
From Verif Require Import PyBase Container EncodeLoop Include.
Set Implicit Arguments.
Open Scope list_scope.
Open Scope N_scope.

Section Tree.
Variable P : Type.                                   (* the content of a source folder without its subfolders *)
Variable lists : list N -> bool.                     (* the class looks for subfolders (not Simple.py 17-18) *)
Variable rd : list N -> P -> option (list N * list N).
Variable dec : list N -> list N -> res (list N * P * list (list N * list (child (list N * P)))).

(** <type>/<name>, and the way from the top folder to an object *)
Definition tag : Type := (list N * list N)%type.
Definition path : Type := list tag.
(** The object folders below a folder *)
Definition sources : Type := list (path * P).
Definition tag_eqb (a b : tag) : bool := str_eqb (fst a) (fst b) && str_eqb (snd a) (snd b).
Fixpoint path_eqb (p q : path) : bool :=
  match p, q with [], [] => true | x :: p, y :: q => tag_eqb x y && path_eqb p q | _, _ => false end.
Definition exists_path (p : path) (ss : sources) : bool := existsb (fun e => path_eqb p (fst e)) ss.

(** [type, [src_dir, uuid, dest_dir, dest_path, ...]] *)
Record xtask := mkxtask { xt_type : list N; xt_uuid : list N; xt_path : path }.

(** helper.makedirs (helper.py 402-409) without exist_ok: no folder is made twice *)
Fixpoint put_sources (new ss : sources) : res sources :=
  match new with
  | [] => Ok ss
  | (p, o) :: r => if exists_path p ss then Err ExtExc else put_sources r (ss ++ [(p, o)])
  end.
(** the folders and the tasks of one object: itself, and its included objects by type *)
Definition new_sources (p : path) (own : P) (kids : list (list N * list (child (list N * P)))) : sources :=
  (p, own) :: flat_map (fun g : list N * list (child (list N * P)) =>
    flat_map (fun k => match k with CFile _ _ => [] | CInner _ (n, o) => [(p ++ [(fst g, n)], o)] end) (snd g)) kids.
Definition new_tasks (p : path) (kids : list (list N * list (child (list N * P)))) : list xtask :=
  flat_map (fun g : list N * list (child (list N * P)) =>
    flat_map (fun k => match k with CFile _ u => [mkxtask (fst g) u p] | CInner _ _ => [] end) (snd g)) kids.
(** decode_include 94-106 *)
Definition run_xtask (t : xtask) (ss : sources) : res (sources * list xtask) :=
  ' (name, own, kids) <- dec (xt_type t) (xt_uuid t) ;;
  let p := xt_path t ++ [(xt_type t, name)] in
  ss <- put_sources (new_sources p own kids) ss ;; Ok (ss, new_tasks p kids).
(** run_in_pool: the tasks in the order in which they end (an object writes to its own folder only) *)
Fixpoint xround (ts : list xtask) (ss : sources) : res (sources * list xtask) :=
  match ts with
  | [] => Ok (ss, [])
  | t :: r => ' (ss, k) <- run_xtask t ss ;; ' (ss, ks) <- xround r ss ;; Ok (ss, k ++ ks)
  end.
(** lines 86-89 *)
Fixpoint xloop (fuel n : nat) (sched : nat -> list xtask -> list xtask) (ss : sources) (ts : list xtask) : res sources :=
  match ts with
  | [] => Ok ss
  | _ => match fuel with
         | O => Err Timeout
         | S fuel' => ' (ss, ts') <- xround (sched n ts) ss ;; xloop fuel' (S n) sched ss ts'
         end
  end.

(** ** What a build finds in the folders *)
(** the part of the sources below one subfolder *)
Definition under (q : tag) (ss : sources) : sources :=
  flat_map (fun e : path * P => match fst e with x :: p => if tag_eqb x q then [(p, snd e)] else [] | [] => [] end) ss.
(** os.listdir: every subfolder once, in any order *)
Definition listing (ss : sources) (qs : list tag) : Prop := NoDup qs /\ forall q, In q qs <-> exists p o, In (q :: p, o) ss.
Definition info_of (q : tag) (own : P) : info P :=
  match rd (fst q) own with
  | Some (name, uuid) => mkinfo (fst q) (snd q) (fst q) true name uuid own
  | None => mkinfo (fst q) (snd q) (fst q) false [] [] own
  end.
(** The nodes that encode_includes makes of the folders.  (Objects of the classes without subfolders have
    no other class name, the classes with versions have no subfolders: i_class is the type.) *)
Inductive reads : tag -> sources -> node P -> Prop :=
| reads_node q ss own cs : In ([], own) ss -> (lists (fst q) = false -> cs = []) -> (lists (fst q) = true -> reads_all ss cs) -> reads q ss (Node (info_of q own) cs)
with reads_all : sources -> list (node P) -> Prop :=
| reads_sub ss qs cs : listing ss qs -> reads_list ss qs cs -> reads_all ss cs
with reads_list : sources -> list tag -> list (node P) -> Prop :=
| reads_nil ss : reads_list ss [] []
| reads_cons ss q qs c cs : reads q (under q ss) c -> reads_list ss qs cs -> reads_list ss (q :: qs) (c :: cs).
End Tree.
