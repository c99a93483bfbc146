(** Vocabulary for whole objects: which files of a container folder belong to an object of a class, what
    may stand in them, and which names the class uses among the sources. *)
From Coq Require Import String.
From Verif Require Import PyBase PyText Utf Brace Spec_Brace Pipeline Spec_Stage Spec_Misc ObjCode Spec_Obj Payload Spec_Payload MetaObj.
Set Implicit Arguments.
Open Scope list_scope.
Open Scope N_scope.

Definition s_idname : list N := Eval vm_compute in u "id"%string.

(** [uuid].[number] is the file of the part in the container folder *)
Definition part_num (p : part) : list N :=
  match p with PHelp n _ | PRaw n _ | PKept n | PImage n _ | PJson n | PStored n => n | PForm1 => s_one | PPackage | PInfo | PPicture | PTemplate _ | PTree => s_zero end.
(** the numbers of a class *)
Definition numbers (c : class) : list (list N) := map snd (c_ext c) ++ map part_num (c_parts c ++ c_late c).

(** the source files of a part; [name] is the name of the object *)
Definition owns (fname name : list N) (p : part) (n : list N) : Prop :=
  match p with
  | PHelp _ f => let f := match f with Some f => f | None => fname end in n = dotted f s_html \/ n = dotted f s_bin
  | PRaw _ d => n = d
  | PPackage => n = dotted fname s_bin
  | PInfo => n = dotted fname x_c1brace
  | PPicture | PTemplate _ => exists x, x <> s_json /\ x <> s_idjson /\ n = dotted fname x
  | PTree => n = name
  | PKept _ | PForm1 | PStored _ => False
  | PImage _ e => n = e
  | PJson k => n = dotted (dotted fname k) s_json
  end.
(** the keys of a part in the header file *)
Definition part_keys (p : part) : list (list N) :=
  match p with
  | PHelp _ _ => [s_help]
  | PPicture | PKept _ => [s_info]
  | PTemplate _ => [s_type; s_html]
  | PImage _ e => [p_image ++ e]
  | PForm1 => [s_form1]
  | PStored n => [s_info ++ n]
  | _ => []
  end.
(** the source files of the modules: [fname].[module].[anything] *)
Definition module_source (c : class) (n : list N) : Prop := exists m x, In m (map fst (c_ext c)) /\ n = source_name (c_name c) m x.
(** every name that the class uses among the sources *)
Definition uses (c : class) (name n : list N) : Prop :=
  n = dotted (c_name c) s_json \/ n = dotted (c_name c) s_idjson \/ module_source c n \/ exists p, In p (c_parts c ++ c_late c) /\ owns (c_name c) name p n.

(** two positions of which none is inside the other *)
Fixpoint apart (p q : list nat) : Prop :=
  match p, q with i :: p, j :: q => i <> j \/ apart p q | _, _ => False end.

(** A class whose parts do not get in each other's way *)
Record class_ok (c : class) (name : list N) : Prop := {
  ok_numbers : NoDup (numbers c);
  ok_modules : NoDup (map fst (c_ext c));
  ok_module_names : Forall (fun m => m <> s_idname /\ Forall scalar m) (map fst (c_ext c));
  ok_keys : NoDup (flat_map part_keys (c_parts c ++ c_late c));
  ok_key_names : Forall (Forall scalar) (flat_map part_keys (c_parts c ++ c_late c));
  ok_sources : ForallOrdPairs (fun p q => forall n, owns (c_name c) name p n -> owns (c_name c) name q n -> False) (c_parts c ++ c_late c);
  ok_header : forall p, In p (c_parts c ++ c_late c) -> ~ owns (c_name c) name p (dotted (c_name c) s_json) /\ ~ owns (c_name c) name p (dotted (c_name c) s_idjson);
  ok_apart_modules : forall p n, In p (c_parts c ++ c_late c) -> owns (c_name c) name p n -> ~ module_source c n;
  ok_type : forall at_, In (PTemplate at_) (c_parts c ++ c_late c) -> apart (c_path c) at_;
  ok_late : forall at_, ~ In (PTemplate at_) (c_late c);
  ok_id_keys : NoDup (map (fun e => fst (fst e)) (c_ids c)) /\ ~ In s_uuid (map (fun e => fst (fst e)) (c_ids c));
  ok_id_texts : Forall (fun e => Forall scalar (fst (fst e)) /\ Forall scalar (snd (fst e))) (c_ids c);
  ok_id_places : NoDup (map (fun e => snd e) (c_ids c));
  ok_format : c_format c = FAny \/ (apart (c_path c) [0; 1; 0]%nat /\ c_ids c = [])
}.

(** What may stand in the file of a part of an object with this header tree and comment.
    (A picture or a binary template whose comment ends with the word json, or with c1b64, is mixed up
    with another source file: C55, C56.) *)
Definition entry_ok (os : platform) (alnum : N -> bool) (p : part) (data : val) (comment : list N) (e : option tree) : Prop :=
  match p with
  | PHelp _ _ => exists content, help_entry os e content
  | PRaw _ _ | PPackage | PInfo => e = None \/ exists bs, e = Some (TFile bs)
  | PPicture => extension_of alnum comment <> s_json /\ exists content, picture_entry os e content
  | PTemplate at_ => exists v ty n, vat at_ data = Ok (VStr v) /\ In (ty, v, n) tmpl_table /\ tmpl_entry os (kind_of ty) e /\
      (kind_of ty = KBinary -> extension_of alnum comment <> s_c1b64 /\ extension_of alnum comment <> s_json)
  | PTree => e = None \/ exists fo, e = Some (TDir fo)
  | PKept _ | PJson _ | PForm1 | PStored _ => e = None \/ exists data bs, e = Some (TFile bs) /\ brace_bytes os data bs
  | PImage _ _ => exists content, picture_entry os e content \/ (content = None /\ exists data bs, e = Some (TFile bs) /\ brace_bytes os data bs /\ picture_blank data)
  end.

(** An object in a container folder: [data] is its header tree, whose element at [c_path] is the header
    list with this identifier, name, names in the languages and comment; each part and module file of the
    class is as it may be. *)
Record object_at (os : platform) (alnum : N -> bool) (c : class) (src : folder) (uuid name : list N) (locs : list (list N * list N)) (comment : list N)
    (data : list val) (hdr : list val) : Prop := {
  oa_format : format_ok (c_format c) (VList data) = true;
  oa_header : vat (c_path c) (VList data) = Ok (VList hdr);
  oa_fields : exists h0 a b r1 more tl, hdr = h0 :: VList (a :: b :: VStr uuid :: r1) :: quoted name :: locale_list locs more :: quoted comment :: tl;
  oa_locs : NoDup (map fst locs);
  oa_parts : forall p, In p (c_parts c ++ c_late c) -> entry_ok os alnum p (VList data) comment (dget (dotted uuid (part_num p)) src);
  oa_modules : forall m n, In (m, n) (c_ext c) -> module_entry os false (dget (dotted uuid n) src)
}.
(** the brace file [uuid] holds the header tree *)
Definition in_file (os : platform) (src : folder) (uuid : list N) (data : list val) : Prop := exists bs, dget uuid src = Some (TFile bs) /\ brace_bytes os data bs.

(** the files of the object that there are, in the order of the class; [store]: the header tree has a file *)
Definition here (uuid : list N) (src : folder) (ns : list (list N)) : list (list N) :=
  flat_map (fun n => match dget (dotted uuid n) src with Some _ => [dotted uuid n] | None => [] end) ns.
Definition object_files (store : bool) (c : class) (uuid : list N) (src : folder) : list (list N) :=
  here uuid src (map part_num (c_parts c)) ++ (if store then [uuid] else []) ++ here uuid src (map snd (c_ext c)) ++ here uuid src (map part_num (c_late c)).

(** the places of the further identifiers exist *)
Definition id_places (l : list (list N * list N * nat)) (tree : val) : Prop :=
  l = [] \/ exists a vs r t, tree = VList (VList (a :: VList vs :: r) :: t) /\ forall e, In e l -> (snd e < length vs)%nat.
(** Whatever stands at the place of the object's header, taking the included objects out of the tree
    succeeds, gives [x], leaves the number of the format alone, and putting them back gives the tree again. *)
Definition carried (X : Type) (c : class) (version : val) (data : list val) (includes : val -> res (val * X)) (fill : val -> res val) (x : X) : Prop :=
  forall h t, vput (c_path c) h (VList data) = Ok t -> Forall scalar (concat (leaves t)) ->
    exists y, includes t = Ok (y, x) /\ fill y = Ok t /\ Forall scalar (concat (leaves y)) /\ id_places (ids_of c version) y /\ vat [0; 1; 0]%nat y = vat [0; 1; 0]%nat t.
