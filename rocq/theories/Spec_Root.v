(** Vocabulary for the root of a container: the lists of included objects of a configuration, an extension and
    an external processor or report, the files that belong to the root itself and what stands in them. *)
From Coq Require Import String.
From Verif Require Import PyBase PyInt PyText Utf Brace Spec_Brace Header Pipeline Spec_Stage Spec_Misc ObjCode Spec_Obj Payload Spec_Payload MetaObj Spec_MetaObj Classes Spec_Container EncodeLoop Types Include Spec_Include IncludeMain Tree Real Spec_Real Root.
Set Implicit Arguments.
Open Scope list_scope.
Open Scope N_scope.

(** ** Lists of included objects *)
(** a list of included objects by type (Spec_Include.v) *)
Record inc := mkinc { n_a : val; n_b : val; n_count : list N; n_gs : list group; n_more : list val }.
Definition inc_val (i : inc) : val := list_val (n_a i) (n_b i) (n_count i) (n_gs i) (n_more i).
Definition inc_ok (i : inc) : Prop := list_ok (n_count i) (n_gs i).
(** A metadata group of a configuration: its identifier and its list, which stands in a list of its own after
    the text 6 in some groups *)
Record mgroup := mkmgroup { m_id : list N; m_wrap : option (list val); m_inc : inc; m_rest : list val }.
Definition mgroup_val (g : mgroup) : val :=
  VList (VStr (m_id g) :: match m_wrap g with None => inc_val (m_inc g) | Some w => VList (VStr s_six :: inc_val (m_inc g) :: w) end :: m_rest g).
Definition mgroup_ok (g : mgroup) : Prop := In (m_id g) group_ids /\ inc_ok (m_inc g) /\ (m_wrap g = None -> n_a (m_inc g) <> VStr s_six).
(** the file of a configuration: the number of groups and the groups *)
Definition groups_tree (r0 r1 : val) (count : list N) (ms : list mgroup) (more rest : list val) : list val :=
  VList (r0 :: r1 :: VStr count :: map mgroup_val ms ++ more) :: rest.
(** the file of an external processor: one list *)
Definition proc_tree (x0 x1 x2 ty : val) (i : inc) (t3 t0 rest : list val) : list val := VList (x0 :: x1 :: x2 :: VList (ty :: inc_val i :: t3) :: t0) :: rest.

(** ** Versions *)
Definition t_config : list N := Eval vm_compute in u "Configuration"%string.
Definition t_proc : list N := Eval vm_compute in u "ExternalDataProcessor"%string.
Definition t_report : list N := Eval vm_compute in u "ExternalReport"%string.
(** The file [version], and the version of the objects that follows from it *)
Inductive version_file : list val -> list N -> Prop :=
| vf_two s n x t r : int_of_str s = Ok n -> (216 <= n)%Z -> version_file (VList (VList [VStr s; x] :: t) :: r) s_802
| vf_three s n x v w t r : int_of_str s = Ok n -> (216 <= n)%Z -> (3 <= length v)%nat -> version_file (VList (VList [VStr s; x; VList (VStr v :: w)] :: t) :: r) (firstn 3 v)
| vf_short s n x v w t r : int_of_str s = Ok n -> (216 <= n)%Z -> v = [49] \/ v = [50] -> version_file (VList (VList [VStr s; x; VList (VStr v :: w)] :: t) :: r) s_802.
(** before 8.2 *)
Definition old_version_file (ver : list val) : Prop := exists w t r, ver = VList (VList (VStr s_106 :: w) :: t) :: r.
(** the files of the old formats have directives in comments *)
Definition old_formats : list (list N) := [s_801; s_802].

Section S.
Variable os : platform.
Variable alnum : N -> bool.
Variable valid : list N -> bool.
Variable lower : list N -> list N.
Variable auto : bool.
Variable src : folder.

(** The root with header tree [data] in the file [fu]; [dirs]: its modules are in an old format. *)
Record root_at (k : rkind) (dirs : bool) (fu uuid name : list N) (locs : list (list N * list N)) (comment : list N) (data hdr : list val) : Prop := {
  ro_file : in_file os src fu data;
  ro_header : vat (c_path (root_class k)) (VList data) = Ok (VList hdr);
  ro_fields : exists h0 a b r1 more tl, hdr = h0 :: VList (a :: b :: VStr uuid :: r1) :: quoted name :: locale_list locs more :: quoted comment :: tl;
  ro_locs : NoDup (map fst locs);
  ro_valid : valid uuid = true;
  ro_parts : forall p, In p (c_parts (root_class k) ++ c_late (root_class k)) -> entry_ok os alnum p (VList data) comment (dget (dotted uuid (part_num p)) src);
  ro_modules : forall m n, In (m, n) (c_ext (root_class k)) -> module_entry os dirs (dget (dotted uuid n) src);
  ro_name : ~ In 46 fu /\ ~ In fu [f_root; f_version; f_versions; f_copyinfo; f_configinfo]
}.
(** the lists [incs] name the objects [xs] in this order, each type once; each object has a file of its own *)
Definition lists_name (incs : list inc) (xs : list item) : Prop :=
  listed os alnum valid auto src (flat_map n_gs incs) xs /\ types_once (flat_map n_gs incs) /\ forall x, In x xs -> it_inner x = false.

(** A configuration: [rt], [ver]: the files root and version *)
Record config_at (version fu uuid name : list N) (locs : list (list N * list N)) (comment : list N) (data hdr rt ver : list val) (xs : list item) : Prop := {
  ca_root : in_file os src f_root rt /\ vat [0; 1]%nat (VList rt) = Ok (VStr fu);
  ca_version : in_file os src f_version ver /\ version_file ver version;
  ca_versions : exists vs, in_file os src f_versions vs;
  ca_noinfo : forall bs, dget f_configinfo src <> Some (TFile bs);
  ca_at : root_at RConfig (existsb (str_eqb version) old_formats) fu uuid name locs comment data hdr;
  ca_lists : exists r0 r1 count m ms more rest props compat, data = groups_tree r0 r1 count (m :: ms) more rest /\ int_of_str count = Ok (Z.of_nat (length (m :: ms))) /\ Forall mgroup_ok (m :: ms) /\
    type_of (VStr (m_id m)) = Some t_config /\ m_wrap m = None /\ n_b (m_inc m) = VList props /\ nth_error props 26 = Some compat /\
    lists_name (map m_inc (m :: ms)) xs
}.
(** An extension: [configinfo] holds the version and [copy]; the product version [product] stands in the properties *)
Record ext_at (version fu uuid name : list N) (locs : list (list N * list N)) (comment : list N) (data hdr : list val) (v copy : val) (rest : list val) (product : list N) (xs : list item) : Prop := {
  ea_info : in_file os src f_configinfo (VList [VStr [48]; v] :: copy :: rest) /\ vat [1%nat] copy = Ok (VStr fu);
  ea_root : forall bs, dget f_root src <> Some (TFile bs);
  ea_version : exists s n x w, v = VList [VStr s; x; VList (VStr version :: w)] /\ int_of_str s = Ok n /\ (216 <= n)%Z /\ starts s_803 version = true;
  ea_at : root_at RExt false fu uuid name locs comment data hdr;
  ea_lists : exists r0 r1 count m ms more rest props compat, data = groups_tree r0 r1 count (m :: ms) more rest /\ int_of_str count = Ok (Z.of_nat (length (m :: ms))) /\ Forall mgroup_ok (m :: ms) /\
    m_wrap m = None /\ n_b (m_inc m) = VList props /\ nth_error props 15 = Some (quoted product) /\ nth_error props 43 = Some compat /\
    lists_name (map m_inc (m :: ms)) xs
}.
(** An external processor or report *)
Record proc_at (version fu uuid name : list N) (locs : list (list N * list N)) (comment : list N) (data hdr ver copy : list val) (xs : list item) : Prop := {
  pa_root : in_file os src f_root [VList [VStr s_two; VStr fu; VStr []]];
  pa_version : in_file os src f_version ver;
  pa_copy : in_file os src f_copyinfo copy;
  pa_noinfo : forall bs, dget f_configinfo src <> Some (TFile bs);
  pa_at : root_at RProc (existsb (str_eqb version) old_formats) fu uuid name locs comment data hdr;
  pa_lists : exists x0 x1 x2 ty i t3 t0 rest, data = proc_tree x0 x1 x2 ty i t3 t0 rest /\ inc_ok i /\ lists_name [i] xs /\
    ((version_file ver version /\ (type_of ty = Some t_proc \/ type_of ty = Some t_report)) \/ (old_version_file ver /\ version = s_801))
}.
End S.

(** ** The file [versions] *)
(** identifiers as uuid4 gives them *)
Definition identifier (s : list N) : Prop := length s = 36%nat /\ Forall (fun c => c = 45 \/ 48 <= c <= 57 \/ 97 <= c <= 102) s.
(** file names *)
Definition fits (n : list N) : Prop := (length n <= 62)%nat /\ ~ In 34 n /\ ~ In 13 n /\ Forall scalar n.
(** Each name once with an identifier, the empty name first; the number of entries before them. *)
Definition versions_of (names : list (list N)) (data : list val) : Prop :=
  exists ids, length ids = S (length names) /\ Forall identifier ids /\
    data = [VList (VStr [49] :: VStr (str_of_int (Z.of_nat (S (length names)))) :: concat (map (fun e : list N * list N => [quoted (fst e); VStr (snd e)]) (combine ([] :: names) ids)))].
(** the file [versions] lists these names *)
Definition versions_in (os : platform) (names : list (list N)) (e : option tree) : Prop := exists data bs, e = Some (TFile bs) /\ brace_bytes os data bs /\ versions_of names data.
(** the names fit on a line each, and there are not too many of them *)
Definition few (names : list (list N)) : Prop := Forall fits names /\ (Z.of_nat (S (length names)) < 2 ^ 31)%Z.

(** ** The files of a root *)
(** besides [versions] *)
Definition root_own (k : rkind) (fu uuid : list N) (src : folder) : list (list N) :=
  match k with RConfig => [f_root; f_version; fu] | RProc => [f_root; f_version; f_copyinfo; fu] | RExt => [f_configinfo; fu] end ++ here uuid src (numbers (root_class k)).
(** No two of these identifiers are the same, and none is the name of another file *)
Definition reserved : list (list N) := [f_root; f_version; f_versions; f_copyinfo; f_configinfo].
Definition own_names (fu uuid : list N) (xs : list item) : Prop :=
  NoDup (uuid :: map it_uuid xs) /\ ~ In fu (map it_uuid xs) /\ forall u, In u (uuid :: fu :: map it_uuid xs) -> ~ In 46 u /\ ~ In u reserved.
(** the sources of the root as extracted *)
Definition root_sources (k : rkind) (name : list N) (own srcs : folder) : Prop :=
  (forall n, uses (root_class k) name n -> dget n srcs = dget n own) /\ (forall n, In n root_files -> n <> c_name (root_class k) -> dget (dotted n x_json) srcs = None).
(** ** Options of a build that leave a root as it was *)
Definition keeps_comment (o : ropts) (comment : list N) : Prop := o_file o = [] \/ o_product_version o = [] \/ ~ exists a b, comment = a ++ ver_mark ++ b.

(** ** Releases *)
(** A release number of three parts with the first two those of the program: 1.2.x *)
Definition same_release (s : list N) : Prop :=
  exists a b c, s = a ++ [46] ++ b ++ [46] ++ c /\ ~ In 46 a /\ ~ In 46 b /\ ~ In 46 c /\ int_of_str a = Ok 1%Z /\ int_of_str b = Ok 2%Z.

(** ** Options of a build that change a root *)
(** [w] is [v] with [new] in place of [old] at the path [p] *)
Inductive changed_at : list nat -> val -> val -> val -> val -> Prop :=
| ch_here old new : changed_at [] old new old new
| ch_in i p old new x y a b : length a = i -> changed_at p old new x y -> changed_at (i :: p) old new (VList (a ++ x :: b)) (VList (a ++ y :: b)).
(** a value that is not a list *)
Definition is_leaf (v : val) : Prop := match v with VList _ => False | _ => True end.
(** a text that a brace file can hold *)
Definition fits_file (v : val) : Prop := exists s, v = VStr s /\ leaf_ok s /\ Forall scalar s.
(** [d'] is [d] with [new], if there is one, at [p] *)
Definition if_given (new : option val) (p : list nat) (d d' : list val) : Prop :=
  match new with None => d' = d | Some x => fits_file x /\ exists old, is_leaf old /\ changed_at p old x (VList d) (VList d') end.
(** the properties are in the list at [0; 3; 1; 1] *)
Definition at_prop (n : nat) : list nat := [0; 3; 1; 1; n]%nat.
(** the comment is kept, or has another text after the first mark "ver:" *)
Inductive commented (o : ropts) (comment : list N) : option val -> Prop :=
| co_same : keeps_comment o comment -> commented o comment None
| co_new a b : o_file o <> [] -> o_product_version o <> [] -> comment = a ++ ver_mark ++ b -> (forall a' b', comment = a' ++ ver_mark ++ b' -> (length a <= length a')%nat) ->
    commented o comment (Some (quoted (a ++ ver_mark ++ o_file o ++ [58] ++ o_product_version o))).
(** What the options make of the file of a configuration, of an extension and of an external processor *)
Definition config_effect (o : ropts) (d d' : list val) : Prop := if_given (option_map VStr (o_version o)) (at_prop 26) d d'.
Definition ext_effect (o : ropts) (comment : list N) (d d' : list val) : Prop :=
  exists c d1 d2 d3, commented o comment c /\
    if_given (Some (quoted (match o_product o with [] => o_product_version o | p => p ++ [95] ++ o_product_version o end))) (at_prop 15) d d1 /\
    if_given c [0; 3; 1; 1; 1; 1; 4]%nat d1 d2 /\
    if_given (option_map VStr (o_version o)) (at_prop 43) d2 d3 /\ if_given (option_map quoted (o_prefix o)) (at_prop 42) d3 d'.
Definition proc_effect (o : ropts) (comment : list N) (d d' : list val) : Prop := exists c, commented o comment c /\ if_given c [0; 3; 1; 1; 3; 1; 4]%nat d d'.
