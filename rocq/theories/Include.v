(** Model of the lists of included objects in a header tree: MetaObject/__init__.py 66-126
    (decode_includes, decode_include) and 131-189 (fill_header_includes, fill_header_include) on decoded
    values, core/Container.py 14-19 (get_decode_includes).  The assembly loop that gives
    fill_header_includes its index is in EncodeLoop.v; the slots there are the slots here without the
    counts. *)
From Coq Require Import String.
From Verif Require Import PyBase PyInt PyText Utf Brace Container Pipeline Payload MetaObj EncodeLoop Types.
Set Implicit Arguments.
Open Scope list_scope.
Open Scope N_scope.

(** MetaDataTypes(value) and MetaDataTypes[name] *)
Fixpoint type_named (v : list N) (t : list (list N * list N)) : option (list N) :=
  match t with [] => None | (n, x) :: r => if str_eqb v x then Some n else type_named v r end.
Definition type_of (v : val) : option (list N) := match v with VStr s => type_named s type_table | _ => None end.

Section Inc.
Variable Y : Type.                                   (* what decode_internal_include writes *)
Variable auto : bool.                                (* the option auto_include *)
(** the class of a type, if there is one, on the data of an object inside the file of its parent: the
    identifier and what is written *)
Variable inner : list N -> option (val -> res (list N * Y)).

(** What an object gives its parent during extraction: a task for an object with a file of its own, or what
    was written for an object inside the file *)
Inductive child := CFile (uuid : list N) | CInner (uuid : list N) (y : Y).

(** lines 101-123: one type.  Objects of a type without class stay where they are. *)
Fixpoint dec_objs (ty : list N) (objs : list val) : res (list val * list child) :=
  match objs with
  | [] => Ok ([], [])
  | o :: r =>
    match o with
    | VStr s => ' (os, ks) <- dec_objs ty r ;; Ok (o :: os, CFile s :: ks)
    | VList _ =>
      match inner ty with
      | None => ' (os, ks) <- dec_objs ty r ;; Ok (o :: os, ks)
      | Some f => ' (uuid, y) <- f o ;; ' (os, ks) <- dec_objs ty r ;; Ok ((if auto then o else VStr uuid) :: os, CInner uuid y :: ks)
      end
    | VNone => ' (os, ks) <- dec_objs ty r ;; Ok (o :: os, ks)
    end
  end.
(** lines 78-125: one element include[i + 3]; every error ends as ExtException *)
Definition dec_slot (s : val) : res (val * list (list N * list child)) :=
  match s with
  | VList (ty :: VStr c :: rest) =>
    match int_of_str c with
    | Err _ => Err ExtExc
    | Ok n =>
      match type_of ty with
      | None => if (n =? 0)%Z then Ok (s, []) else match rest with [] => Err ExtExc | _ => Ok (s, []) end
      | Some t =>
        let n := Z.to_nat n in
        if (length rest <? n)%nat then Err ExtExc
        else ' (os, ks) <- dec_objs t (firstn n rest) ;;
             match ks with
             | [] => Ok (VList (ty :: VStr c :: os ++ skipn n rest), [])
             | _ => Ok (if auto then VStr t else VList (ty :: VStr c :: os ++ skipn n rest), [(t, ks)])
             end
      end
    end
  | _ => Err ExtExc
  end.
Fixpoint dec_slots (ss : list val) : res (list val * list (list N * list child)) :=
  match ss with
  | [] => Ok ([], [])
  | s :: r => ' (s, k) <- dec_slot s ;; ' (r, ks) <- dec_slots r ;; Ok (s :: r, k ++ ks)
  end.
(** lines 71-79; os.mkdir (lines 104, 118): no folder is made twice.  (The folder is taken to be made
    whenever there is an object to put in, not only when it is the first.) *)
Fixpoint nodup_names (l : list (list N)) : bool := match l with [] => true | x :: r => negb (existsb (str_eqb x) r) && nodup_names r end.
Definition dec_include (inc : val) : res (val * list (list N * list child)) :=
  match inc with
  | VList (a :: b :: VStr c :: rest) =>
    match int_of_str c with
    | Err _ => Err ExtExc
    | Ok n =>
      let n := Z.to_nat n in
      if (length rest <? n)%nat then Err ExtExc
      else ' (ss, ks) <- dec_slots (firstn n rest) ;;
           if nodup_names (map fst ks) then Ok (VList (a :: b :: VStr c :: ss ++ skipn n rest), ks) else Err ExtExc
    end
  | _ => Err ExtExc
  end.
(** core/Container.py 15-19 with lines 66-69: the only list is element 0 of the header tree *)
Definition container_decode (tree : val) : res (val * list (list N * list child)) :=
  inc <- vget tree 0 ;; ' (inc, ks) <- dec_include inc ;; tree <- Payload.vset tree 0 inc ;; Ok (tree, ks).
End Inc.

Section Fill.
Variable lower : list N -> list N.                   (* str.lower *)
Variable idx : tindex val.                           (* include_index *)
Definition type_value (n : list N) : option (list N) := dget n type_table.
Fixpoint fill_objs (es : list (entry val)) (objs : list val) : res (list val) :=
  match objs with
  | [] => Ok []
  | VStr s :: r => match last_with lower s es with Some d => r <- fill_objs es r ;; Ok (d :: r) | None => Err ExtExc end
  | _ => Err ExtExc
  end.
(** lines 148-189 *)
Definition vfill_slot (s : val) : res val :=
  match s with
  | VStr t =>
    match type_value t with
    | None => Err ExtExc
    | Some v => let es := sort_names (of_type idx t) in Ok (VList (VStr v :: VStr (str_of_int (Z.of_nat (length es))) :: map (fun e : entry val => snd (snd e)) es))
    end
  | VList (ty :: VStr c :: rest) =>
    match int_of_str c with
    | Err _ => Err ExtExc
    | Ok n =>
      match type_of ty with
      | None => Ok s
      | Some t =>
        match of_type idx t with
        | [] => Ok s
        | es => let n := Z.to_nat n in
                if (length rest <? n)%nat then Err ExtExc else os <- fill_objs es (firstn n rest) ;; Ok (VList (ty :: VStr c :: os ++ skipn n rest))
        end
      end
    end
  | VNone => Ok s
  | _ => Err ExtExc
  end.
Fixpoint vfill_slots (ss : list val) : res (list val) := match ss with [] => Ok [] | s :: r => s <- vfill_slot s ;; r <- vfill_slots r ;; Ok (s :: r) end.
(** lines 137-144 *)
Definition vfill_include (inc : val) : res val :=
  match inc with
  | VList (a :: b :: VStr c :: rest) =>
    match int_of_str c with
    | Err _ => Err ExtExc
    | Ok n => let n := Z.to_nat n in
              if (length rest <? n)%nat then Err ExtExc else ss <- vfill_slots (firstn n rest) ;; Ok (VList (a :: b :: VStr c :: ss ++ skipn n rest))
    end
  | _ => Err ExtExc
  end.
(** MetaDataObject/__init__.py 150: an empty index changes nothing *)
Definition container_fill (tree : val) : res val :=
  match idx with
  | [] => Ok tree
  | _ => inc <- vget tree 0 ;; inc <- vfill_include inc ;; Payload.vset tree 0 inc
  end.
End Fill.
