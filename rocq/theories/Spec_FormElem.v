(** Vocabulary for the elements of managed forms. *)
From Coq Require Import String.
From Verif Require Import PyBase PyInt Brace Header CalcOffset Spec_Misc MetaObj FormElem.
Set Implicit Arguments.
Open Scope list_scope.
Open Scope N_scope.

(** ** Places *)
(** The types of elements, and where an element of a type has its name, its link to a property, its link to a command
    and the number of its children: segments of (length, size of the records counted by the last value) after the
    first value *)
Definition type_id (k : fkind) : list N :=
  match k with
  | FField => u "77ffcc29-7f2d-4223-b22f-19666e7250ba" | FButton => u "a9f3b1ac-f51b-431e-b102-55a69acdecad" | FDecoration => u "3d3cb80c-508b-41fa-8a18-680cdf5f1712"
  | FGroup => u "cd5394d0-7dda-4b56-8927-93ccbe967a01" | FTable => u "143c00f7-a42d-4cd7-9189-88e4467dc768" | FAddition => u "c5259a1d-518a-4afd-b98d-0176027e4feb"
  end%string.
Definition name_place (k : fkind) : list (Z * Z) :=
  match k with
  | FField | FGroup | FDecoration => [(3, 1); (1, 1); (2, 0)]
  | FButton => [(3, 1); (2, 0)]
  | FTable => [(4, 1); (1, 0)]
  | FAddition => [(3, 1); (3, 0)]
  end%Z.
Definition prop_place (k : fkind) : option (list (Z * Z)) :=
  match k with FField => Some [(3, 1); (1, 1); (7, 0)] | FTable => Some [(4, 1); (7, 0)] | _ => None end%Z.
Definition command_place (k : fkind) : option (list (Z * Z)) := match k with FButton => Some [(3, 1); (5, 0)] | _ => None end%Z.
Definition kids_place (k : fkind) : option (list (Z * Z)) :=
  match k with FGroup => Some [(3, 1); (1, 1); (17, 0)] | FTable => Some [(4, 1); (50, 2); (7, 0)] | _ => None end%Z.

(** [v] stands in [l] where the counters say: after the first value and the segments that they describe, as the
    last value of the last segment *)
Definition stands (counters : list (Z * Z)) (v : val) (l : list val) : Prop :=
  exists x data post, l = x :: (data ++ [v]) ++ post /\ laid_out counters (data ++ [v]).
(** the segments hold [n] values in counted records *)
Inductive holds : list (Z * Z) -> list val -> Z -> Prop :=
| ho_nil : holds [] [] 0
| ho_skip k counters items rest n : k = zlen items -> holds counters rest n -> holds ((k, 0%Z) :: counters) (items ++ rest) n
| ho_count k size counters filler c records rest n : k = (1 + zlen filler)%Z -> (size <> 0)%Z -> (0 <= c)%Z -> zlen records = (c * size)%Z -> holds counters rest n ->
    holds ((k, size) :: counters) ((filler ++ VStr (str_of_int c) :: records) ++ rest) (c * size + n).
(** the number of values of a group or a table without its records is the one its version has *)
Definition counted (counters : list (Z * Z)) (l : list val) (n : Z) : Prop := exists x data post m, l = x :: data ++ post /\ holds counters data m /\ n = (zlen l - m)%Z.
Definition size_ok (k : fkind) (l : list val) : Prop :=
  match k with
  | FGroup => exists n, counted [(3, 1); (1, 1); (17, 2)]%Z l n /\ (first_is s_22 l = true -> (20 <= n)%Z)
  | FTable => exists n, counted [(4, 1); (50, 2); (7, 2)]%Z l n /\ (first_is s_55 l = true -> n = 99%Z)
  | _ => True
  end.

(** ** Elements *)
(** An element: kind, name, the values before the number of its children, the children, the values after them.
    Only groups and tables have children. *)
Inductive felem := FElem (k : fkind) (name : list N) (front : list val) (kids : list felem) (back : list val).
Definition fe_kind (e : felem) : fkind := match e with FElem k _ _ _ _ => k end.
Definition fe_name (e : felem) : list N := match e with FElem _ n _ _ _ => n end.
Definition fe_front (e : felem) : list val := match e with FElem _ _ f _ _ => f end.
Definition fe_kids (e : felem) : list felem := match e with FElem _ _ _ ks _ => ks end.
Definition fe_back (e : felem) : list val := match e with FElem _ _ _ _ b => b end.
Definition number (n : nat) : val := VStr (str_of_int (Z.of_nat n)).
Definition has_kids (k : fkind) : bool := match k with FGroup | FTable => true | _ => false end.
(** as it stands in a form *)
Fixpoint raw_of (e : felem) : list val :=
  match e with
  | FElem k _ front kids back =>
    if has_kids k then front ++ number (length kids) :: flat_map (fun c => [VStr (type_id (fe_kind c)); VList (raw_of c)]) kids ++ back
    else front
  end.
Definition pairs_of (es : list felem) : list val := flat_map (fun c => [VStr (type_id (fe_kind c)); VList (raw_of c)]) es.
(** as it is kept in the sources: without its children *)
Definition bare (e : felem) : list val :=
  match e with
  | FElem k _ front [] back => if has_kids k then front ++ number 0 :: back else front
  | FElem k _ front _ back => if has_kids k then front ++ VStr kids_mark :: back else front
  end.
(** its place in 'tree' *)
Fixpoint item_of (e : felem) : fitem :=
  match e with FElem k name _ kids _ => FItem name k (if has_kids k then match kids with [] => None | _ => Some (map item_of kids) end else None) end.
(** The children of a group to be renamed are kept under its first name: includr_x and include_x *)
Definition shared_name (k : fkind) (name : list N) : list N := match k with FGroup => if starts s_includr name then s_include ++ skipn 8 name else name | _ => name end.
(** the paths of an element and of everything in it, with the elements *)
Fixpoint paths (path : list N) (e : felem) : list (list N * felem) :=
  match e with FElem k name front kids back => (elem_path path name, e) :: flat_map (paths (elem_path path (shared_name k name))) kids end.
Definition all_paths (es : list felem) : list (list N * felem) := flat_map (paths []) es.

(** ** Links *)
(** the properties of a form: name, id and columns; the commands: name, id and how they are referred to *)
Definition sprop : Type := list N * list N * list (list N * list N).
Definition sp_name (p : sprop) : list N := fst (fst p).
Definition sp_id (p : sprop) : list N := snd (fst p).
Definition sp_cols (p : sprop) : list (list N * list N) := snd p.
(** a link to a property or a command that can be looked at *)
Definition link_fine (link : val) : Prop :=
  link = VStr [] \/ exists n l, link = VList (number n :: l) /\ (n <= length l)%nat /\ Forall (fun x => exists id r, x = VList (VStr id :: r)) (firstn n l).
(** the link leads to a property or a column, and is written as the build writes it *)
Inductive links_to (props : list sprop) : val -> list N -> Prop :=
| lt_prop p l : In p props -> links_to props (VList (number 1 :: VList [VStr (sp_id p)] :: l)) (sp_name p)
| lt_col p c l : In p props -> In c (sp_cols p) -> links_to props (VList (number 2 :: VList [VStr (sp_id p)] :: VList [VStr (snd c)] :: l)) (sp_name p ++ [46] ++ fst c).
(** the link leads nowhere *)
Inductive links_nowhere (props : list sprop) : val -> Prop :=
| ln_none : links_nowhere props (VStr [])
| ln_zero l : links_nowhere props (VList (number 0 :: l))
| ln_prop n id r l : (0 < n)%nat -> ~ In id (map sp_id props) -> links_nowhere props (VList (number n :: VList (VStr id :: r) :: l))
| ln_col n p r id r' l : (1 < n)%nat -> In p props -> ~ In id (map snd (sp_cols p)) -> links_nowhere props (VList (number n :: VList (VStr (sp_id p) :: r) :: VList (VStr id :: r') :: l))
| ln_deep n p c r r' l : (2 < n)%nat -> In p props -> In c (sp_cols p) -> links_nowhere props (VList (number n :: VList (VStr (sp_id p) :: r) :: VList (VStr (snd c) :: r') :: l)).
(** commands: name, id, and the value that refers to it *)
Definition scmd : Type := list N * list N * val.
Definition sc_name (c : scmd) : list N := fst (fst c).
Definition sc_id (c : scmd) : list N := snd (fst c).
Definition sc_ref (c : scmd) : val := snd c.
Definition cmd_link (cmds : list scmd) (link : val) : Prop :=
  link = VStr [] \/ (exists l, link = VList (number 0 :: l)) \/
  exists id n l, link = VList (VStr id :: l) /\ int_of_str id = Ok n /\ (n <> 0)%Z /\
    forall c, In c cmds -> sc_id c = id -> sc_name c <> [] /\ sc_ref c = link.
Definition cmd_fine (link : val) : Prop := link = VStr [] \/ exists id n l, link = VList (VStr id :: l) /\ int_of_str id = Ok n.

(** ** Elements that come back *)
Definition inside (p s : list N) : Prop := exists a b, s = a ++ p ++ b.
(** An element to be shared between forms: 'include_' or 'includr_' in its path *)
Definition shared (path : list N) : Prop := inside s_include path \/ inside s_includr path.
(** 'includr_' is the start of a name only, and not of the name of a table *)
Definition renaming_ok (k : fkind) (name : list N) : Prop := ~ inside s_includr name \/ (k <> FTable /\ exists r, name = s_includr ++ r /\ ~ inside s_includr (s_include ++ r)).

Section S.
Variable props : list sprop.
Variable cmds : list scmd.
(** the parts of one element stand in their places; links of shared elements are as the build writes them *)
Record elem_ok (path : list N) (e : felem) : Prop := {
  eo_name : stands (name_place (fe_kind e)) (quoted (fe_name e)) (fe_front e);
  eo_kids : forall at_, kids_place (fe_kind e) = Some at_ -> exists x data, fe_front e = x :: data /\ laid_out at_ (data ++ [number (length (fe_kids e))]);
  eo_leaf : has_kids (fe_kind e) = false -> fe_kids e = [] /\ fe_back e = [];
  eo_size : size_ok (fe_kind e) (raw_of e);
  eo_prop : forall at_, prop_place (fe_kind e) = Some at_ -> exists link, stands at_ link (fe_front e) /\ link_fine link /\
    (shared path -> links_nowhere props link \/ exists n, n <> [] /\ links_to props link n);
  eo_cmd : forall at_, command_place (fe_kind e) = Some at_ -> exists link, stands at_ link (fe_front e) /\ cmd_fine link /\ (shared path -> cmd_link cmds link);
  eo_renaming : renaming_ok (fe_kind e) (fe_name e)
}.
(** all the elements of a form; no two have one path *)
Definition elems_ok (es : list felem) : Prop := Forall (fun pe => elem_ok (fst pe) (snd pe)) (all_paths es) /\ NoDup (map fst (all_paths es)).
End S.

(** ** Properties, commands and parameters *)
(** the type of a property can be looked at and is not the mark of the parent *)
Definition pattern_ok (p : val) : Prop :=
  match p with
  | VNone => False
  | VList (_ :: VNone :: _) | VList (_ :: VStr [] :: _) | VList (_ :: VList [] :: _) => False
  | VList (_ :: VList (VStr h :: rest) :: _) => h = s_hash -> exists t r, rest = VStr t :: r /\ t <> parent_mark
  | _ => True
  end.
Definition col_at (c : list N * list N) (v : val) : Prop := exists c0 c2 r, v = VList (c0 :: VStr (snd c) :: c2 :: quoted (fst c) :: r).
Definition prop_is (p : sprop) (v : val) : Prop :=
  exists a0 i a2 a4 pat mid cols r, v = VList (a0 :: VList (VStr (sp_id p) :: i) :: a2 :: quoted (sp_name p) :: a4 :: pat :: mid ++ number (length (sp_cols p)) :: cols ++ r) /\
    length mid = 7%nat /\ pattern_ok pat /\ Forall2 col_at (sp_cols p) cols.
Definition cmd_is (c : scmd) (v : val) : Prop := exists a0 i r, v = VList (a0 :: sc_ref c :: quoted (sc_name c) :: r) /\ sc_ref c = VList (VStr (sc_id c) :: i).
Definition par_is (n : list N) (v : val) : Prop := exists a0 r, v = VList (a0 :: quoted n :: r).
(** A section: its values [vs] one after the other, with their number before them; [more] after them *)
Definition section_is (vs : list val) (sec : val) : Prop := exists h more, sec = VList (h :: number (length vs) :: vs ++ more).
(** the section stands at [i]; a form may be too short to have it *)
Definition section_at (i : nat) (vs : list val) (raw : list val) : Prop := match nth_error raw i with Some sec => section_is vs sec | None => vs = [] end.
(** names by which elements refer to properties *)
Definition dotted_names (props : list sprop) : list (list N) := flat_map (fun p => sp_name p :: map (fun c => sp_name p ++ [46] ++ fst c) (sp_cols p)) props.

(** A form: [raw] as in the file, with the elements [es] *)
Record form_is (raw : list val) (props : list sprop) (cmds : list scmd) (pars : list (list N)) (es : list felem) : Prop := {
  fi_root : exists v0 front back rest x data, raw = v0 :: VList (front ++ number (length es) :: pairs_of es ++ back) :: rest /\
    front = x :: data /\ laid_out [(18, 2); (3, 1); (1, 0)]%Z (data ++ [number (length es)]);
  fi_elems : elems_ok props cmds es;
  fi_props : exists vs, section_at 3 vs raw /\ Forall2 prop_is props vs;
  fi_cmds : exists vs, section_at 5 vs raw /\ Forall2 cmd_is cmds vs;
  fi_pars : exists vs, section_at 4 vs raw /\ Forall2 par_is pars vs;
  fi_ids : NoDup (map sp_id props) /\ Forall (fun p => NoDup (map snd (sp_cols p))) props /\ NoDup (map sc_id cmds);
  fi_names : NoDup (dotted_names props) /\ Forall (fun n => n <> []) (map sp_id props) /\ NoDup (map sc_name cmds)
}.

(** ** Sources *)
(** An entry of the sources for the element [e] *)
Definition entry_of (props : list sprop) (cmds : list scmd) (e : felem) (ed : edata) : Prop :=
  e_raw ed = bare e /\
  (forall at_ link n, prop_place (fe_kind e) = Some at_ -> stands at_ link (fe_front e) -> links_to props link n -> n <> [] -> e_prop ed = Some n) /\
  (forall at_ id l c, command_place (fe_kind e) = Some at_ -> stands at_ (VList (VStr id :: l)) (fe_front e) -> In c cmds -> sc_id c = id -> sc_name c <> [] -> int_of_str id <> Ok 0%Z -> e_cmd ed = Some (sc_name c)).

(** ** Sources that were written by hand or come from another form *)
(** [l'] is [l] with [v] in place of [old] where the counters say *)
Definition replaced (counters : list (Z * Z)) (old v : val) (l l' : list val) : Prop :=
  exists x data post, l = x :: (data ++ [old]) ++ post /\ laid_out counters (data ++ [old]) /\ l' = x :: (data ++ [v]) ++ post.
(** the link of an element whose source names the property [name]: it leads to the property of this form with that name *)
Inductive relinked (props : list sprop) : option (list N) -> val -> val -> Prop :=
| rl_none link : relinked props None link link
| rl_empty name : relinked props name (VStr []) (VStr [])
| rl_prop p old l : In p props -> sp_name p <> [] -> relinked props (Some (sp_name p)) (VList (number 1 :: old :: l)) (VList (number 1 :: VList [VStr (sp_id p)] :: l))
| rl_col p c old old' l : In p props -> In c (sp_cols p) ->
    relinked props (Some (sp_name p ++ [46] ++ fst c)) (VList (number 2 :: old :: old' :: l)) (VList (number 2 :: VList [VStr (sp_id p)] :: VList [VStr (snd c)] :: l)).
Inductive recommanded (cmds : list scmd) : option (list N) -> val -> val -> Prop :=
| rc_none link : recommanded cmds None link link
| rc_empty name : recommanded cmds name (VStr []) (VStr [])
| rc_cmd c x l y m : In c cmds -> sc_name c <> [] -> sc_ref c = VList (y :: m) -> recommanded cmds (Some (sc_name c)) (VList (x :: l)) (VList (y :: m)).
(** The entry [ed] under [key] stands for the element [e]: the name is put into elements to be renamed, the
    links into elements to be shared *)
Definition with_front (f : list val) (e : felem) : felem := match e with FElem k n _ kids back => FElem k n f kids back end.
Definition written_as (props : list sprop) (cmds : list scmd) (key : list N) (ed : edata) (e : felem) : Prop :=
  exists f0 f1 f2, e_raw ed = bare (with_front f0 e) /\
    (inside s_includr key -> exists old, replaced (name_place (fe_kind e)) old (quoted (fe_name e)) f0 f1) /\ (~ inside s_includr key -> f1 = f0) /\
    (shared key -> match prop_place (fe_kind e) with Some at_ => exists link link', replaced at_ link link' f1 f2 /\ relinked props (e_prop ed) link link' | None => f2 = f1 end) /\
    (shared key -> match command_place (fe_kind e) with Some at_ => exists link link', replaced at_ link link' f2 (fe_front e) /\ recommanded cmds (e_cmd ed) link link' | None => fe_front e = f2 end) /\
    (~ shared key -> fe_front e = f1).
(** a property in the sources, and in the form: with its columns, and the parent of this form as its type if it is
    marked so *)
Definition prop_made (parent : option (list N)) (p : sprop) (f : fprop) (v : val) : Prop :=
  pr_name f = sp_name p /\ pr_id f = VStr (sp_id p) /\
  exists a0 a1 a2 a3 a4 pat pat' mid c r cols, pr_raw f = VList (a0 :: a1 :: a2 :: a3 :: a4 :: pat :: mid ++ c :: r) /\ length mid = 7%nat /\
    match pr_cols f with Some l => l | None => [] end = cols /\ map (fun x => (co_name x, co_id x)) cols = map (fun x : list N * list N => (fst x, VStr (snd x))) (sp_cols p) /\
    v = VList (a0 :: a1 :: a2 :: a3 :: a4 :: pat' :: mid ++ (match cols with [] => c | _ => number (length cols) end) :: map co_raw cols ++ r) /\
    ((pattern_ok pat /\ pat' = pat) \/ exists x l q t, pat = VList (x :: VList (VStr s_hash :: VStr parent_mark :: l) :: q) /\ pat' = VList (x :: VList (VStr s_hash :: VStr t :: l) :: q) /\ t = match parent with Some (c :: r) => c :: r | _ => parent_mark end).
Definition cmd_made (c : scmd) (f : fcmd) (v : val) : Prop := cm_name f = sc_name c /\ cm_raw f = v /\ exists a0 r, v = VList (a0 :: sc_ref c :: r).
Definition par_made (_ : unit) (f : fpar) (v : val) : Prop := pa_raw f = v.
(** the list of a section comes from the sources if it is marked, and is left as it is otherwise *)
Inductive section_made (A B : Type) (made : A -> B -> val -> Prop) (items : option (list B)) : list A -> option val -> option val -> Prop :=
| sm_items h more xs ys vs : match items with Some l => l | None => [] end = ys -> length xs = length ys -> length vs = length ys ->
    (forall i x y v, nth_error xs i = Some x -> nth_error ys i = Some y -> nth_error vs i = Some v -> made x y v) ->
    section_made made items xs (Some (VList (h :: VStr kids_mark :: more))) (Some (VList (h :: number (length ys) :: vs ++ more)))
| sm_none : section_made made items [] None None
| sm_left h c l : c <> VStr kids_mark -> section_made made items [] (Some (VList (h :: c :: l))) (Some (VList (h :: c :: l))).
(** [raw'] in the sources with the lists [fe] stand for the form [raw] with the elements [es] *)
Record described (parent : option (list N)) (fe : felems) (raw' raw : list val) (props : list sprop) (cmds : list scmd) (es : list felem) : Prop := {
  de_tree : fe_tree fe = Some (map item_of es);
  de_root : exists v0 front back rest rest' x data, raw' = v0 :: VList (front ++ VStr kids_mark :: back) :: rest' /\ raw = v0 :: VList (front ++ number (length es) :: pairs_of es ++ back) :: rest /\
    front = x :: data /\ laid_out [(18, 2); (3, 1); (1, 0)]%Z (data ++ [number (length es)]);
  de_same : forall i, i <> 1%nat -> i <> 3%nat -> i <> 4%nat -> i <> 5%nat -> nth_error raw' i = nth_error raw i;
  de_props : section_made (prop_made parent) (fe_props fe) props (nth_error raw' 3) (nth_error raw 3);
  de_cmds : section_made cmd_made (fe_commands fe) cmds (nth_error raw' 5) (nth_error raw 5);
  de_pars : exists us, section_made par_made (fe_params fe) us (nth_error raw' 4) (nth_error raw 4);
  de_names : NoDup (dotted_names props) /\ Forall (fun n => n <> []) (map sp_id props) /\ NoDup (map sc_name cmds);
  de_kids : forall path e, In (path, e) (all_paths es) ->
    (forall at_, kids_place (fe_kind e) = Some at_ -> exists x data, fe_front e = x :: data /\ laid_out at_ (data ++ [number (length (fe_kids e))])) /\
    (has_kids (fe_kind e) = false -> fe_kids e = [] /\ fe_back e = []);
  de_data : forall path e, In (path, e) (all_paths es) -> exists ed, dget path (fe_data fe) = Some ed /\ written_as props cmds path ed e
}.

(** ** Forms whose elements stay in the file *)
Definition section_left (i : nat) (raw : list val) : Prop := match nth_error raw i with Some sec => exists h c l, sec = VList (h :: c :: l) /\ c <> VStr kids_mark | None => True end.
(** no part of the form is marked as kept in .elem.json *)
Definition left_whole (raw : list val) : Prop :=
  section_left 5 raw /\ section_left 3 raw /\ section_left 4 raw /\
  exists v0 x data c back rest, raw = v0 :: VList (x :: data ++ c :: back) :: rest /\ laid_out [(18, 2); (3, 1); (1, 0)]%Z (data ++ [c]) /\ c <> VStr kids_mark.
