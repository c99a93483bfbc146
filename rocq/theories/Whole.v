(** Model of the program from the bytes of a .cf, .cfe, .epf or .erf file to the extracted objects and back:
    /repo/src/v8unpack/decoder.py 176-207 (encode, decode) between the stages of v8unpack.py 47-55 (extract) and
    105-111 (build).  The stages themselves are in Pipeline.v (containers) and Root.v (objects); the organizers,
    which move the extracted files to the user's folder and back, are in OrgTree.v, not here. *)
From Coq Require Import String.
From Verif Require Import PyBase PyInt Utf PyText Codecs Brace Container Pipeline ObjCode Payload MetaObj Classes EncodeLoop Types Include Tree Real Root.
Open Scope list_scope.
Open Scope N_scope.

Definition c_zero : list N := [48].
Definition c_one : list N := [49].

(** a folder on disk holds each name once *)
Definition once (A : Type) (l : list (list N * A)) : list (list N * A) :=
  fold_right (fun e acc => e :: filter (fun x => negb (str_eqb (fst x) (fst e))) acc) [] l.
Arguments once {A} l.
(** The files written to the container folder, in this order; an entry without content is not written. *)
Definition on_disk (files : list written) : folder :=
  fold_left (fun fo e => match snd e with Some t => dset (fst e) t fo | None => fo end) files [].
(** What os.stat and open give for an entry at [p]: [time] is the ctime and mtime of the file. *)
Fixpoint to_node (time : list (list N) -> Z * Z) (p : list (list N)) (t : tree) : Container.node :=
  match t with
  | TFile d => NFile (fst (time p)) (snd (time p)) d
  | TDir l => NDir (once (map (fun e => (fst e, to_node time (p ++ [fst e]) (snd e))) l))
  end.
Definition to_nodes (time : list (list N) -> Z * Z) (fo : folder) : list (list N * Container.node) := map (fun e => (fst e, to_node time [fst e] (snd e))) fo.

Section W.
Variable os : platform.
Variable alnum : N -> bool.
Variable valid : list N -> bool.
Variable lower : list N -> list N.
Variable auto : bool.
Variable fresh : nat -> list N.
Variable other_dec : folder -> list N -> list N -> res (list N * folder * list (list N * list (child (list N * folder)))).
Variable other_enc : info folder -> res (option val * list written).
Variable deflate : list N -> list N.
Variable digest : list N -> list N.
Variable inf : inflater.

(** decoder.py 198-207 decode: the folders of the second stage are called 0, 1, ...; [order] is the order in which
    os.listdir gives them.  The last is decoded; of two, the folder 0 is put aside in dummy.zip.
    Simplification: the archive is the folder it was made of. *)
Definition numbered (cs : list folder) : list (list N * folder) := combine (map (fun i => str_of_int (Z.of_nat i)) (seq 0 (length cs))) cs.
Definition choose (order : list (list N * folder) -> list (list N * folder)) (cs : list folder) : res (folder * option folder) :=
  let all := numbered cs in
  if negb (Nat.eqb (length all) 1 || Nat.eqb (length all) 2) then Err NotImplementedError
  else match rev (order all) with
       | [] => Err IndexError
       | (_, src) :: _ => if Nat.eqb (length all) 2 then match dget c_zero all with Some z => Ok (src, Some z) | None => Err FileNotFoundError end else Ok (src, None)
       end.
(** v8unpack.py 50-55: the sources of the root, the folders of the objects, the contents of dummy.zip *)
Definition extract_file (n fuel depth : nat) (sched : list (list N * list N) -> list (list N * list N)) (order : list (list N * folder) -> list (list N * folder))
    (xfuel : nat) (xsched : nat -> list xtask -> list xtask) (bytes : list N) : res (folder * sources folder * option folder) :=
  cs <- unpack inf n fuel depth sched bytes ;;
  ' (src, dummy) <- choose order cs ;;
  ' (own, ss) <- extract_tree os alnum valid auto other_dec xfuel xsched src ;;
  Ok (own, ss, dummy).

(** decoder.py 186-190: the product version of version.bin *)
Definition with_product (srcs : folder) (o : ropts) : res ropts :=
  match txt_read srcs f_version_bin e_utf8 with
  | Ok p => Ok (mkropts (o_version o) (o_prefix o) (o_product o) p (o_file o))
  | Err FileNotFoundError => Ok o
  | Err e => Err e
  end.
(** decoder.py 176-196 encode, then v8unpack.py 110-111.  [order]: the order of os.listdir in the container
    folders; [time]: the times of the files written; [stamp]: those of the compressed files. *)
Definition build_file (o : ropts) (bfuel : nat) (bsched : nat -> list (task val folder) -> list (task val folder)) (srcs : folder) (folders : list (EncodeLoop.node folder)) (dummy : option folder)
    (order : list (list N * Container.node) -> list (list N * Container.node)) (time : list (list N) -> Z * Z) (stamp : list N -> Z * Z) : res (list N) :=
  o <- with_product srcs o ;;
  files <- build_tree os alnum lower auto fresh other_enc o bfuel bsched srcs folders ;;
  let made := order (to_nodes time (on_disk files)) in
  pack deflate digest os stamp (match dummy with None => [(c_zero, made)] | Some z => [(c_zero, order (to_nodes time z)); (c_one, made)] end).
End W.
