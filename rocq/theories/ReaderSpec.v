(** Vocabulary used to state the properties of the reader: what the source files say. *)
From Coq Require Import Ascii String Bool Arith ZArith Permutation List.
From Verif Require Import GoStrings GoMap NamesModel NamesSpec ConceptsModel ConceptsSpec ReporterModel
  ReaderModel.
Import ListNotations.
Local Open Scope string_scope.

(** Lookup key of an identifier. *)
Definition key_of (id : string) : key := name_string (parse_using_case id).

(** Identifiers that a type reference uses. *)
Definition ref_uses (r : type_ref) : list string :=
  match r with RPlain n => [n] | RList e => [e] | RMap i e => [i; e] end.

(** Lookup key of the list type and of the map type that a reference introduces. *)
Definition list_key (e : string) : key := name_string (cat [parse_using_case e; parse_using_case "List"]).
Definition map_key (i e : string) : key :=
  name_string (cat [parse_using_case i; parse_using_case e; parse_using_case "Map"]).

(** Lookup key of the type that a reference denotes. *)
Definition ref_key (r : type_ref) : key :=
  match r with RPlain n => key_of n | RList e => list_key e | RMap i e => map_key i e end.

(** Lookup keys of the types that a reference introduces without a declaration. *)
Definition ref_derived (r : type_ref) : list key :=
  match r with RPlain _ => [] | RList e => [list_key e] | RMap i e => [map_key i e] end.

(** Type references of a declaration. *)
Definition decl_refs (d : decl) : list type_ref :=
  match d with
  | DClass _ _ ms _ | DStruct _ _ ms _ => map md_ref ms
  | DResource _ _ ms _ =>
      flat_map (fun m => match m with
                         | RMMethod x => map pd_ref (xd_params x)
                         | RMLocator _ => []
                         end) ms
  | DEnum _ _ _ _ | DError _ _ _ _ => []
  end.

(** Identifiers used as types in a sequence of declarations. *)
Definition type_uses (ds : list decl) : list string := flat_map ref_uses (flat_map decl_refs ds).

(** Keys of the list and map types introduced by a sequence of declarations. *)
Definition derived_types (ds : list decl) : list key := flat_map ref_derived (flat_map decl_refs ds).

(** Types declared by a sequence of declarations. *)
Definition decl_types (d : decl) : list string :=
  match d with
  | DEnum _ n _ _ | DClass _ n _ _ | DStruct _ n _ _ => [n]
  | DResource _ _ _ _ | DError _ _ _ _ => []
  end.
Definition declared_types (ds : list decl) : list string := flat_map decl_types ds.

(** Resources used as targets and resources declared. *)
Definition member_targets (m : resource_member) : list string :=
  match m with
  | RMMethod _ => []
  | RMLocator l => flat_map (fun x => match x with LMTarget n => [n] | LMVariable _ => [] end) (ld_members l)
  end.
Definition decl_targets (d : decl) : list string :=
  match d with DResource _ _ ms _ => flat_map member_targets ms | _ => [] end.
Definition resource_uses (ds : list decl) : list string := flat_map decl_targets ds.
Definition decl_resources (d : decl) : list string :=
  match d with DResource _ n _ _ => [n] | _ => [] end.
Definition declared_resources (ds : list decl) : list string := flat_map decl_resources ds.

(** Errors declared. *)
Definition decl_errors (d : decl) : list string := match d with DError _ n _ _ => [n] | _ => [] end.
Definition declared_errors (ds : list decl) : list string := flat_map decl_errors ds.

(** Built-in types of a version. *)
Definition builtin_key (k : key) : Prop :=
  exists b, In b builtins /\ (k = snd (fst b) \/ k = snd (fst b) ++ "_list").

(** All the declarations of the files of a version, in order. *)
Definition all_decls (files : list file) : list decl := flat_map snd files.

(** State of the reader when it starts and when it ends to load the files of a version that isn't
    loaded together with others. *)
Definition fresh (n : name) : rstate := MkRState (new_version n) [] [] [].
Definition load_files (files : list file) (st : rstate) : rstate :=
  fold_left (fun st f => load_file f st) files st.

(** * What a declaration denotes *)

Definition literal_of (l : literal_decl) : option literal :=
  match l with
  | LDBool b => Some (LBool b)
  | LDInt digits => match atoi digits with (n, false) => Some (LInt (Z.of_N n)) | _ => None end
  | LDString _ u => option_map LString u
  end.

(** The parameters of an annotation: the last value of each name. *)
Definition annotation_params_of (l : list (string * literal_decl)) : list (string * literal) :=
  fold_left (fun acc nl => match literal_of (snd nl) with
                           | Some x => mset (fst nl) x acc
                           | None => mdel (fst nl) acc
                           end) l [].
Definition annotation_of (a : annotation_decl) : annotation :=
  MkAnnotation (ad_name a) (annotation_params_of (ad_params a)).

Definition value_of (d : value_decl) : enum_value :=
  MkEnumValue (parse_using_case (vd_name d)) (vd_doc d) (map annotation_of (vd_annots d)).

Definition attribute_of (d : member_decl) : attribute :=
  MkAttribute (parse_using_case (md_name d)) (ref_key (md_ref d)) (md_link d) (md_doc d)
    (map annotation_of (md_annots d)).

(** Declared directions: without any it is an output. *)
Definition declared_in (l : list direction) : Prop := In DIn l.
Definition declared_out (l : list direction) : Prop := In DOut l \/ l = [].

Definition parameter_of (d : param_decl) (p : parameter) : Prop :=
  p_name p = parse_using_case (pd_name d) /\
  p_type p = ref_key (pd_ref d) /\
  (p_in p = true <-> declared_in (pd_directions d)) /\
  (p_out p = true <-> declared_out (pd_directions d)) /\
  p_default p = match pd_default d with Some l => literal_of l | None => None end /\
  p_doc p = pd_doc d /\
  p_annots p = map annotation_of (pd_annots d).

Definition method_of (d : method_decl) (m : method) : Prop :=
  m_name m = parse_using_case (xd_name d) /\ m_doc m = xd_doc d /\
  m_annots m = map annotation_of (xd_annots d) /\
  exists ps, Forall2 parameter_of (xd_params d) ps /\ Permutation ps (m_params m).

(** The target of a locator is the last one given, and it is variable if it has a variable. *)
Fixpoint last_target (l : list locator_member) : option key :=
  match l with
  | [] => None
  | LMVariable _ :: r => last_target r
  | LMTarget n :: r => match last_target r with Some k => Some k | None => Some (key_of n) end
  end.

Definition locator_of (d : locator_decl) (l : locator) : Prop :=
  l_name l = parse_using_case (ld_name d) /\ l_doc l = ld_doc d /\
  l_annots l = map annotation_of (ld_annots d) /\
  l_target l = last_target (ld_members d) /\
  (l_variable l = true <-> exists n, In (LMVariable n) (ld_members d)).

(** The methods and the locators of a resource declaration. *)
Definition member_methods (ms : list resource_member) : list method_decl :=
  flat_map (fun m => match m with RMMethod x => [x] | RMLocator _ => [] end) ms.
Definition member_locators (ms : list resource_member) : list locator_decl :=
  flat_map (fun m => match m with RMMethod _ => [] | RMLocator x => [x] end) ms.

(** The type that a declaration denotes. *)
Definition type_of_decl (d : decl) (t : typ) : Prop :=
  match d with
  | DEnum ans n vs doc =>
      t_name t = parse_using_case n /\ t_kind t = EnumType /\ t_doc t = doc /\
      t_annots t = map annotation_of ans /\
      t_attrs t = [] /\ Permutation (map value_of vs) (t_values t)
  | DClass ans n ms doc =>
      t_name t = parse_using_case n /\ t_kind t = ClassType /\ t_doc t = doc /\
      t_annots t = map annotation_of ans /\
      t_values t = [] /\ Permutation (map attribute_of ms) (t_attrs t)
  | DStruct ans n ms doc =>
      t_name t = parse_using_case n /\ t_kind t = StructType /\ t_doc t = doc /\
      t_annots t = map annotation_of ans /\
      t_values t = [] /\ Permutation (map attribute_of ms) (t_attrs t)
  | DError _ _ _ _ | DResource _ _ _ _ => False
  end.

(** The resource that a declaration denotes. *)
Definition resource_of_decl (d : decl) (r : resource) : Prop :=
  match d with
  | DResource ans n ms doc =>
      r_name r = parse_using_case n /\ r_doc r = doc /\ r_annots r = map annotation_of ans /\
      (exists xs, Forall2 method_of (member_methods ms) xs /\ Permutation xs (r_methods r)) /\
      (exists ls, Forall2 locator_of (member_locators ms) ls /\ Permutation ls (r_locators r))
  | _ => False
  end.

(** The error that a declaration denotes: the last code given, or zero. *)
Definition error_of_decl (d : decl) (e : error) : Prop :=
  match d with
  | DError ans n codes doc =>
      e_name e = parse_using_case n /\ e_doc e = doc /\ e_annots e = map annotation_of ans /\
      e_code e = last (map (fun c => Z.of_N (fst (atoi c))) codes) 0%Z
  | _ => False
  end.

(** Nothing refers to something that doesn't exist. *)
Definition has_type (v : version) (k : key) : Prop := exists t, type_at k v = Some t.
Definition has_resource (v : version) (k : key) : Prop := exists r, resource_at k v = Some r.

Definition closed_type (v : version) (t : typ) : Prop :=
  (forall a, In a (t_attrs t) -> has_type v (a_type a)) /\
  (forall k, t_element t = Some k -> has_type v k) /\
  (forall k, t_index t = Some k -> has_type v k).

Definition closed_resource (v : version) (r : resource) : Prop :=
  (forall m p, In m (r_methods r) -> In p (m_params m) -> has_type v (p_type p)) /\
  (forall l k, In l (r_locators r) -> l_target l = Some k -> has_resource v k).

Definition closed_version (v : version) : Prop :=
  (forall k t, type_at k v = Some t -> closed_type v t) /\
  (forall k r, resource_at k v = Some r -> closed_resource v r).

(** All the identifiers used as types or resources, or declared, are camel case identifiers. *)
Definition camel_source (ds : list decl) : Prop :=
  Forall camel_identifier (type_uses ds) /\ Forall camel_identifier (declared_types ds) /\
  Forall camel_identifier (resource_uses ds) /\ Forall camel_identifier (declared_resources ds) /\
  Forall camel_identifier (declared_errors ds).

(** No report is an error. *)
Definition no_errors (rs : list report) : Prop := forall m, ~ In (err m) rs.

(** All the locators have targets. *)
Definition targets_ok (v : version) : Prop :=
  forall k r, resource_at k v = Some r -> forall l, In l (r_locators r) -> l_target l <> None.

(** The versions of a service and the services of a model. *)
Definition in_service (s : service) (v : version) : Prop := exists k, mget k (s_versions s) = Some v.
Definition in_model (m : model) (s : service) : Prop := exists k, mget k m = Some s.

(** The lines written for reports of the given severities, and their number. *)
Definition severity_eqb (a b : severity) : bool :=
  match a, b with SInfo, SInfo | SWarn, SWarn | SError, SError => true | _, _ => false end.
Definition of_severity (s : severity) (rs : list report) : list report :=
  filter (fun r => severity_eqb (rp_severity r) s) rs.

(** The predefined types and their kinds. *)
Definition predefined_kinds : list (key * kind) :=
  [("boolean", ScalarType); ("integer", ScalarType); ("long", ScalarType); ("float", ScalarType); ("date", ScalarType);
   ("string", ScalarType); ("interface", InterfaceType)].
