(** Vocabulary for a container folder with objects in objects: which objects there are, what stands in their
    files and lists, which source folders an extraction makes and which files are theirs. *)
From Coq Require Import String Permutation.
From Verif Require Import PyBase PyInt PyText Utf Brace Spec_Brace Pipeline Spec_Stage ObjCode Spec_Obj Payload MetaObj Spec_MetaObj Classes Spec_Container EncodeLoop Types Include Spec_Include IncludeMain Tree Real.
Set Implicit Arguments.
Open Scope list_scope.
Open Scope N_scope.

(** An object: its class, identifier and name; whether it stands inside the file of its parent; its header tree
    and its included objects *)
Inductive item := Item (c : class) (uuid name : list N) (inner : bool) (data : list val) (kids : list item).
Definition it_class (x : item) : class := let 'Item c _ _ _ _ _ := x in c.
Definition it_type (x : item) : list N := c_name (it_class x).
Definition it_uuid (x : item) : list N := let 'Item _ u _ _ _ _ := x in u.
Definition it_name (x : item) : list N := let 'Item _ _ n _ _ _ := x in n.
Definition it_inner (x : item) : bool := let 'Item _ _ _ b _ _ := x in b.
Definition it_data (x : item) : list val := let 'Item _ _ _ _ d _ := x in d.
Definition it_kids (x : item) : list item := let 'Item _ _ _ _ _ ks := x in ks.
Definition it_tag (x : item) : tag := (it_type x, it_name x).
Fixpoint it_height (x : item) : nat := let 'Item _ _ _ _ _ ks := x in S (fold_right (fun k m => Nat.max (it_height k) m) O ks).
Definition it_heights (xs : list item) : nat := fold_right (fun k m => Nat.max (it_height k) m) O xs.
(** an object and everything below it *)
Fixpoint below (x : item) : list item := let 'Item _ _ _ _ _ ks := x in x :: flat_map below ks.

(** what stands for an object in the list of its parent: the identifier, or the object itself *)
Definition it_val (x : item) : val := if it_inner x then VList (it_data x) else VStr (it_uuid x).
(** what a parent gets from its objects of one type *)
Definition it_entries (t : list N) (xs : list item) : list (entry val) :=
  map (fun x => (it_name x, (it_uuid x, it_val x))) (filter (fun x => str_eqb t (it_type x)) xs).

Section S.
Variable os : platform.
Variable alnum : N -> bool.
Variable valid : list N -> bool.
Variable lower : list N -> list N.
Variable auto : bool.
Variable version : list N.
Variable src : folder.

(** The groups of a list name the objects [xs] in this order.  Groups of types that the program does not know
    may hold anything, groups of known types without objects hold nothing that it would take for one.  With
    auto_include, objects are in order of their names, their number is written as Python writes it and
    nothing follows. *)
Inductive listed : list group -> list item -> Prop :=
| ls_nil : listed [] []
| ls_unknown g gs xs : known g = None -> listed gs xs -> listed (g :: gs) xs
| ls_alone g t gs xs : known g = Some t -> Forall (left_alone (inner_of os alnum valid src) t) (g_objs g) -> listed gs xs -> listed (g :: gs) xs
| ls_objects g t os1 gs xs : known g = Some t -> os1 <> [] -> Forall (fun x => it_type x = t) os1 -> g_objs g = map it_val os1 ->
    (auto = true -> ascending (map it_name os1) /\ g_count g = str_of_int (Z.of_nat (length os1)) /\ g_more g = []) ->
    listed gs xs -> listed (g :: gs) (os1 ++ xs).
(** no type has two groups *)
Definition types_once (gs : list group) : Prop := NoDup (flat_map (fun g => match known g with Some t => [t] | None => [] end) gs).
(** objects of one type in one list have different names and identifiers *)
Definition different (xs : list item) : Prop :=
  NoDup (map it_tag xs) /\ forall t, NoDup (map (fun x => lower (it_uuid x)) (filter (fun x => str_eqb t (it_type x)) xs)).
(** names and identifiers *)
Definition named (uuid name : list N) : Prop := ~ In 46 name /\ ~ In 47 name /\ valid uuid = true /\ uuid <> [].

Variable other_dec : list N -> list N -> res (list N * folder * list (list N * list (child (list N * folder)))).
Variable other_enc : info folder -> res (option val * list written).
(** An object with everything below it stands in the container folder as it should. *)
Inductive placed : item -> Prop :=
| placed_simple c uuid name locs comment data hdr :
    In c simple_classes -> named uuid name -> object_at os alnum c src uuid name locs comment data hdr -> in_file os src uuid data ->
    placed (Item c uuid name false data [])
| placed_inner c uuid name locs comment data hdr :
    In c inner_classes -> named uuid name -> object_at os alnum c src uuid name locs comment data hdr -> Forall scalar (concat (leaves (VList data))) ->
    placed (Item c uuid name true data [])
| placed_container c uuid name locs comment data hdr a b count gs more rest xs :
    In c container_classes -> named uuid name -> object_at os alnum c src uuid name locs comment data hdr -> in_file os src uuid data ->
    data = list_val a b count gs more :: rest -> list_ok count gs -> types_once gs -> has_ids c (VStr version) b ->
    listed gs xs -> different xs -> (forall x, In x xs -> placed x) ->
    placed (Item c uuid name false data xs)
| placed_other c uuid name data own fs :              (* a form: of its class it is only known that it restores it *)
    ~ In (c_name c) (map c_name classes) -> ~ In 47 (c_name c) -> NoDup (numbers c) -> named uuid name -> other_dec (c_name c) uuid = Ok (name, own, []) ->
    real_rd (c_name c) own = Some (name, uuid) -> other_enc (mkinfo (c_name c) name (c_name c) true name uuid own) = Ok (Some (VStr uuid), fs) ->
    map fst fs = object_files true c uuid src -> Forall (fun e : written => same_entry (dget (fst e) src) (snd e)) fs ->
    placed (Item c uuid name false data []).
End S.

(** the source folders of an object and everything below it *)
Fixpoint it_folders (x : item) : list path :=
  let 'Item c _ n _ _ ks := x in [(c_name c, n)] :: map (cons (c_name c, n)) (flat_map it_folders ks).
(** the files of an object in the container folder that there are *)
Definition it_files (src : folder) (x : item) : list (list N) := object_files (negb (it_inner x)) (it_class x) (it_uuid x) src.
