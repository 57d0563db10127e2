(** Model of pkg/language/checks.go, and of the last part of [Reader.Read]. *)
From Coq Require Import Ascii String Bool Arith ZArith List.
From Verif Require Import GoStrings GoMap NamesModel ConceptsModel ReporterModel ReaderModel.
Import ListNotations.
Local Open Scope string_scope.

(** Result of the parts of the code that can panic, and of the loops modelled with fuel. *)
Inductive outcome (A : Type) :=
| Done (a : A)
| Panics
| OutOfFuel.
Arguments Done {A}.
Arguments Panics {A}.
Arguments OutOfFuel {A}.

(** pkg/concepts/type.go:40-60, [TypeKind.String]. *)
Definition kind_string (k : kind) : string :=
  match k with
  | ClassType => "class" | EnumType => "enum" | InterfaceType => "interface{}"
  | ListType => "list" | MapType => "map" | ScalarType => "scalar" | StructType => "struct"
  | UndefinedType => "unknown"
  end.

(** The owners of the things that are being checked.  The version is used to follow the references to
    types. *)
Record scope := MkScope { sc_service : name; sc_version : version; sc_resource : name; sc_method : name }.

(** Full name of a method and of a parameter, pkg/reporter/reporter.go:130-146. *)
Definition method_fqn (sc : scope) : string :=
  fqn [sc_service sc; v_name (sc_version sc); sc_resource sc; sc_method sc].
Definition param_fqn (sc : scope) (p : parameter) : string :=
  fqn [sc_service sc; v_name (sc_version sc); sc_resource sc; sc_method sc; p_name p].

(** Type of a parameter.  A reference to a type that doesn't exist can't happen in Go; it is modelled
    as a type without kind. *)
Definition param_type (sc : scope) (p : parameter) : typ :=
  match type_at (p_type p) (sc_version sc) with
  | Some t => t
  | None => new_type (p_name p)
  end.

(** pkg/concepts/type.go: [IsScalar], [IsStruct] and [IsList] of the type of a parameter. *)
Definition p_scalar (sc : scope) (p : parameter) : bool := is_scalar (param_type sc p).
Definition p_struct (sc : scope) (p : parameter) : bool := is_struct (param_type sc p).
Definition p_list (sc : scope) (p : parameter) : bool := is_list (param_type sc p).

(** Shape of the loops of the checks: one error for each parameter that satisfies a condition. *)
Definition each (l : list parameter) (bad : parameter -> bool) (msg : parameter -> string)
    : list report :=
  flat_map (fun p => if bad p then [err (msg p)] else []) l.

(** Shape of the checks of the number of parameters. *)
Definition unless_one {A} (l : list A) (msg : string) : list report :=
  if Nat.eqb (List.length l) 1 then [] else [err msg].

(** Name of a parameter equal to one of the well known names. *)
Definition named (n : name) (p : parameter) : bool := name_equals (Some n) (Some (p_name p)).

(** pkg/language/checks.go:93-138, [checkAdd]. *)
Definition check_add (sc : scope) (m : method) : list report :=
  let structs := filter (p_struct sc) (m_params m) in
  concat [each (m_params m) (fun p => negb (p_scalar sc p) && negb (p_struct sc p))
     (fun p => "Type of parameter '" ++ param_fqn sc p ++ "' should be scalar or struct but it is " ++
               kind_string (t_kind (param_type sc p)));
   unless_one structs
     ("Method '" ++ method_fqn sc ++ "' should have exactly one struct parameter but it has " ++
      itoa (List.length structs));
   each structs (fun p => negb (p_in p) || negb (p_out p))
     (fun p => "Direction of parameter '" ++ param_fqn sc p ++ "' should be 'in out'");
   each structs (fun p => negb (named nBody p))
     (fun p => "Name of parameter '" ++ param_fqn sc p ++ "' should be '" ++ camel nBody ++ "'")].

(** pkg/language/checks.go:140-157, [checkDelete]; note that the first message contains the name of
    the method instead of the name of the parameter. *)
Definition check_delete (sc : scope) (m : method) : list report :=
  concat [each (m_params m) (fun p => negb (p_scalar sc p))
     (fun p => "Type of parameter '" ++ method_fqn sc ++ "' should be scalar but it is " ++
               kind_string (t_kind (param_type sc p)));
   each (m_params m) (fun p => negb (p_in p) || p_out p)
     (fun p => "Direction of parameter '" ++ param_fqn sc p ++ "' must be 'in'")].

(** pkg/language/checks.go:159-213, [checkGet]. *)
Definition check_get (sc : scope) (m : method) : list report :=
  let structs := filter (p_struct sc) (m_params m) in
  concat [each (m_params m) (fun p => negb (p_scalar sc p) && negb (p_struct sc p))
     (fun p => "Type of parameter '" ++ param_fqn sc p ++ "' must be scalar or struct but it is " ++
               kind_string (t_kind (param_type sc p)));
   unless_one structs
     ("Method '" ++ method_fqn sc ++ "' should have exactly one struct parameter but it has " ++
      itoa (List.length structs));
   each (m_params m) (fun p => p_scalar sc p && (negb (p_in p) || p_out p))
     (fun p => "Direction of parameter '" ++ param_fqn sc p ++ "' should be 'in'");
   each structs (fun p => negb (p_out p) || p_in p)
     (fun p => "Direction of parameter '" ++ param_fqn sc p ++ "' should be 'out'");
   each structs (fun p => negb (named nBody p))
     (fun p => "Name of parameter '" ++ param_fqn sc p ++ "' should be '" ++ camel nBody ++ "'")].

(** Comparison of the default value of a parameter with an integer: [param.Default() != dflt]. *)
Definition default_is (n : Z) (p : parameter) : bool :=
  match p_default p with
  | Some (LInt z) => Z.eqb z n
  | _ => false
  end.

(** pkg/language/checks.go:530-562, [checkRequestParameter]. *)
Definition check_request_parameter (sc : scope) (m : method) (n : name) (dflt : Z) : list report :=
  match get_parameter n m with
  | None => [warn ("Method '" ++ method_fqn sc ++ "' doesn't have a '" ++ camel n ++ "' parameter")]
  | Some p =>
      concat [each [p] (fun p => negb (is_builtin nInteger (p_type p)))
         (fun p => "Type of parameter '" ++ param_fqn sc p ++ "' should be integer but it is '" ++
                   camel (t_name (param_type sc p)) ++ "'");
       each [p] (fun p => negb (p_in p) || negb (p_out p))
         (fun p => "Direction of parameter '" ++ param_fqn sc p ++ "' should be 'in out'");
       each [p] (fun p => negb (default_is dflt p))
         (fun p => "Default value of parameter `" ++ param_fqn sc p ++ "` should be " ++ itoa_z dflt)]
  end.

(** pkg/language/checks.go:564-590, [checkResponseParameter]. *)
Definition check_response_parameter (sc : scope) (m : method) (n : name) : list report :=
  match get_parameter n m with
  | None => [warn ("Method '" ++ method_fqn sc ++ "' doesn't have a '" ++ camel n ++ "' parameter")]
  | Some p =>
      concat [each [p] (fun p => negb (is_builtin nInteger (p_type p)))
         (fun p => "Type of parameter '" ++ param_fqn sc p ++ "' should be integer but it is '" ++
                   camel (t_name (param_type sc p)) ++ "'");
       each [p] (fun p => p_in p || negb (p_out p))
         (fun p => "Direction of parameter '" ++ param_fqn sc p ++ "' should be 'out'")]
  end.

(** pkg/language/checks.go:241-249: the [items] parameter is mandatory. *)
Definition check_items (sc : scope) (m : method) : list report :=
  match get_parameter nItems m with
  | None => [err ("Method '" ++ method_fqn sc ++ "' doesn't have a '" ++ camel nItems ++ "' parameter")]
  | Some _ => []
  end.

(** pkg/language/checks.go:224-272, part shared by [checkList] and [checkSearch] (357-403). *)
Definition check_paging (sc : scope) (m : method) : list report :=
  let lists := filter (p_list sc) (m_params m) in
  concat [unless_one lists
     ("Method '" ++ method_fqn sc ++ "' should have exactly one list parameter but it has " ++
      itoa (List.length lists));
   check_request_parameter sc m nPage 1;
   check_request_parameter sc m nSize 100;
   check_response_parameter sc m nTotal;
   check_items sc m;
   each lists (fun p => p_in p || negb (p_out p))
     (fun p => "Direction of parameter '" ++ param_fqn sc p ++ "' should be 'out'");
   each lists (fun p => negb (named nItems p))
     (fun p => "Name of parameter '" ++ param_fqn sc p ++ "' should be '" ++ camel nItems ++ "'")].

(** pkg/language/checks.go:215-273, [checkList]. *)
Definition check_list (sc : scope) (m : method) : list report :=
  concat [each (m_params m) (fun p => negb (p_scalar sc p) && negb (p_list sc p))
     (fun p => "Type of parameter '" ++ param_fqn sc p ++ "' should be scalar or list but it is '" ++
               kind_string (t_kind (param_type sc p)) ++ "'");
   check_paging sc m].

(** pkg/language/checks.go:275-319, [checkPost]. *)
Definition check_post (sc : scope) (m : method) : list report :=
  let ins := filter p_in (m_params m) in
  let outs := filter p_out (m_params m) in
  concat [(if Nat.ltb 1 (List.length ins) then
      [err ("Method '" ++ method_fqn sc ++ "' should have at most one input parameter but it has " ++
            itoa (List.length ins))]
    else []);
   each ins (fun p => negb (p_struct sc p))
     (fun p => "Parameter '" ++ param_fqn sc p ++ "' should be a struct but it is " ++
               kind_string (t_kind (param_type sc p)));
   unless_one outs
     ("Method '" ++ method_fqn sc ++ "' should have at most one output parameter but it has " ++
      itoa (List.length outs));
   each outs (fun p => negb (p_struct sc p))
     (fun p => "Parameter '" ++ param_fqn sc p ++ "' should be a struct but it is " ++
               kind_string (t_kind (param_type sc p)))].

(** pkg/language/checks.go:321-434, [checkSearch]. *)
Definition check_search (sc : scope) (m : method) : list report :=
  let ins := filter p_in (m_params m) in
  let outs := filter p_out (m_params m) in
  let bodies := filter (fun p => p_struct sc p && p_in p) (m_params m) in
  concat [each outs (fun p => negb (p_scalar sc p) && negb (p_list sc p))
     (fun p => "Parameter '" ++ param_fqn sc p ++ "' should be scalar or list but it is " ++
               kind_string (t_kind (param_type sc p)));
   each ins (fun p => negb (p_scalar sc p) && negb (p_struct sc p))
     (fun p => "Parameter '" ++ param_fqn sc p ++ "' should be scalar or struct but it is '" ++
               kind_string (t_kind (param_type sc p)) ++ "'");
   check_paging sc m;
   unless_one bodies
     ("Method '" ++ method_fqn sc ++ "' should have exactly one body parameter but it has " ++
      itoa (List.length bodies));
   flat_map (fun p =>
     concat [each [p] (fun p => p_out p || negb (p_in p))
        (fun p => "Direction of parameter '" ++ param_fqn sc p ++ "' should be 'in'");
      each [p] (fun p => negb (named nBody p))
        (fun p => "Name of parameter '" ++ param_fqn sc p ++ "' should be be '" ++ camel nBody ++ "'")])
     bodies].

(** pkg/language/checks.go:436-493, [checkUpdate]. *)
Definition check_update (sc : scope) (m : method) : list report :=
  let bodies := filter (fun p => p_struct sc p || p_list sc p) (m_params m) in
  concat [each (m_params m) (fun p => negb (p_scalar sc p) && negb (p_struct sc p) && negb (p_list sc p))
     (fun p => "Type of parameter '" ++ param_fqn sc p ++
               "' should be scalar, struct or list but it is '" ++
               kind_string (t_kind (param_type sc p)) ++ "'");
   unless_one bodies
     ("Method '" ++ method_fqn sc ++ "' should have exactly one struct or list parameter but it has " ++
      itoa (List.length bodies));
   each (m_params m) (fun p => p_scalar sc p && (negb (p_in p) || p_out p))
     (fun p => "Direction of parameter '" ++ param_fqn sc p ++ "' should be 'in'");
   each bodies (fun p => negb (p_in p) || negb (p_out p))
     (fun p => "Direction of parameter '" ++ param_fqn sc p ++ "' should be 'in out'");
   each bodies (fun p => negb (named nBody p))
     (fun p => "Name of parameter '" ++ param_fqn sc p ++ "' should be be '" ++ camel nBody ++ "'")].

(** pkg/language/checks.go:499-528, [checkParameter].  The versions returned by the model always
    contain the built-in types, so [typ] is never nil when there is a default value. *)
Definition check_parameter (sc : scope) (p : parameter) : list report :=
  match p_default p with
  | None => []
  | Some l =>
      let n := match l with LBool _ => nBoolean | LInt _ => nInteger | LString _ => nString end in
      if is_builtin n (p_type p) then []
      else
        [err ("Type of default value of parameter '" ++ param_fqn sc p ++ "' should be '" ++
              camel (t_name (param_type sc p)) ++ "'")]
  end.

(** pkg/language/checks.go:60-91 and 495-497, [checkMethod] and [checkAction]. *)
Definition check_method (sc : scope) (m : method) : list report :=
  concat [(if is_add m then check_add sc m
    else if is_delete m || is_async_delete m then check_delete sc m
    else if is_get m then check_get sc m
    else if is_list_method m then check_list sc m
    else if is_post m then check_post sc m
    else if is_search m then check_search sc m
    else if is_update m || is_async_update m then check_update sc m
    else if is_action m then []
    else
      [err ("Don't know how to check method '" ++ method_fqn sc ++
            "' because it doesn't belong to any of the known categories")]);
   flat_map (check_parameter sc) (m_params m)].

(** pkg/language/checks.go:54-58, [checkResource]. *)
Definition check_resource (sn : name) (v : version) (r : resource) : list report :=
  flat_map (fun m => check_method (MkScope sn v (r_name r) (m_name m)) m) (r_methods r).

(** * Locator loops *)

(** A locator together with its owner. *)
Definition step := (key * locator)%type.

(** The locators of the resource stored under a key, with their owner. *)
Definition steps_of (k : key) (r : resource) : list step := map (fun l => (k, l)) (r_locators r).

(** Name of a resource given its key. *)
Definition resource_label (sn : name) (v : version) (k : key) : string :=
  match resource_at k v with
  | Some r => fqn [sn; v_name v; r_name r]
  | None => k
  end.

(** Targets are printed with their full name; a locator that is part of a loop has a target. *)
Definition target_label (sn : name) (v : version) (s : step) : string :=
  match l_target (snd s) with Some k => resource_label sn v k | None => "" end.

(** pkg/language/checks.go:622-657, [reportLocatorPathLoop]. *)
Definition report_loop (sn : name) (v : version) (path : list step) : list report :=
  let describe (what : string) (s : step) :=
    info (what ++ " locator of the loop is '" ++ camel (l_name (snd s)) ++ "' defined in resource '" ++
          resource_label sn v (fst s) ++ "' and targeting resource '" ++ target_label sn v s ++ "'") in
  match path with
  | [] => []
  | [s] =>
      [err ("Locator '" ++ camel (l_name (snd s)) ++ "' introduces a loop, it is defined in resource '" ++
            resource_label sn v (fst s) ++ "' and targets that same resource")]
  | first :: rest =>
      let lst := last rest first in
      concat [err ("Locator '" ++ camel (l_name (snd lst)) ++ "' defined in resource '" ++
            resource_label sn v (fst lst) ++ "' introduces a loop, see the details below")
       :: describe "First" first :: map (describe "Next") (removelast rest); [describe "Last" lst]]
  end.

(** pkg/language/checks.go:603-612: the path, as a list with the last locator first, is cut at the
    nearest locator that is defined in the given resource; the result is in the order of the path. *)
Fixpoint cut_at (k : key) (rpath : list step) (acc : list step) : option (list step) :=
  match rpath with
  | [] => None
  | s :: r => if String.eqb (fst s) k then Some (s :: acc) else cut_at k r (s :: acc)
  end.

(** Runs the checks of several paths in order. *)
Fixpoint run_all {A} (f : A -> outcome (list report)) (l : list A) : outcome (list report) :=
  match l with
  | [] => Done []
  | a :: r =>
      match f a with
      | Done x =>
          match run_all f r with
          | Done y => Done (x ++ y)%list
          | Panics => Panics
          | OutOfFuel => OutOfFuel
          end
      | Panics => Panics
      | OutOfFuel => OutOfFuel
      end
  end.

(** pkg/language/checks.go:599-620, [checkLocatorPathLoops]; the path is given as its last locator and
    the previous ones in reverse order.  A last locator without target causes a nil pointer panic in
    line 617 (no locator has a nil owner, so no loop is found). *)
Fixpoint check_path_loops (fuel : nat) (sn : name) (v : version) (lst : step) (prev : list step)
    : outcome (list report) :=
  match fuel with
  | O => OutOfFuel
  | S fuel =>
      match l_target (snd lst) with
      | None => Panics
      | Some k =>
          match cut_at k (lst :: prev) [] with
          | Some loop => Done (report_loop sn v loop)
          | None =>
              match resource_at k v with
              | None => Panics
              | Some r =>
                  run_all (fun next => check_path_loops fuel sn v next (lst :: prev)) (steps_of k r)
              end
          end
      end
  end.

(** pkg/language/checks.go:592-597, [checkLocatorLoops]: a nil pointer panic if there is no root. *)
Definition check_locator_loops (fuel : nat) (sn : name) (v : version) : outcome (list report) :=
  match root v with
  | None => Panics
  | Some r => run_all (fun s => check_path_loops fuel sn v s []) (steps_of (name_key nRoot) r)
  end.

(** Enough fuel for the loop check ([loops_terminate] in LoopsProofs.v). *)
Definition loop_fuel (v : version) : nat := S (List.length (v_resources v)).

(** pkg/language/checks.go:39-52, [checkVersion]. *)
Definition check_version (sn : name) (v : version) : outcome (list report) :=
  let reports :=
    concat [(match root v with
      | None => [err ("Version '" ++ fqn [sn; v_name v] ++ "' doesn't have a root resource")]
      | Some _ => []
      end);
     flat_map (check_resource sn v) (resources v)] in
  match check_locator_loops (loop_fuel v) sn v with
  | Done l => Done (reports ++ l)%list
  | Panics => Panics
  | OutOfFuel => OutOfFuel
  end.

(** pkg/language/checks.go:33-37, [checkService]. *)
Definition check_service (s : service) : outcome (list report) :=
  run_all (check_version (s_name s)) (versions s).

(** pkg/language/checks.go:27-31, [checkModel]. *)
Definition check_model (m : model) : outcome (list report) := run_all check_service (services m).

(** * Reading *)

(** Result of [Read]: a model or the text of the error, together with all the reports made. *)
Inductive read_result :=
| ROk (m : model)
| RError (message : string).

(** pkg/language/reader.go:156-168: the final decision. *)
Definition decide (m : model) (reports : list report) : read_result :=
  let n := error_count reports in
  if Nat.ltb 0 n then
    if Nat.ltb 1 n then RError ("there were " ++ itoa n ++ " errors") else RError "there was 1 error"
  else ROk m.

(** pkg/language/reader.go:99-169, [Read], for a reader that has a reporter that has already been used
    to make the given reports. *)
Definition read (inputs : list (list service_dir)) (reports : list report)
    : outcome (read_result * list report) :=
  let g := load_inputs inputs reports in
  let reports := (g_reports g ++ undefined_reports g)%list in
  let m := ensure_model_lists (g_model g) in
  match check_model m with
  | Done l => let reports := (reports ++ l)%list in Done (decide m reports, reports)
  | Panics => Panics
  | OutOfFuel => OutOfFuel
  end.
