(** Model of the clients generated by pkg/generators/golang/clients_generator.go: the paths of the URLs that they use and the
    names of the generated functions and fields; and of the tree of paths generated by
    pkg/generators/golang/metrics_generator.go. *)
From Coq Require Import Ascii String Bool Arith ZArith NArith List.
From Verif Require Import GoStrings GoMap NamesModel ConceptsModel ReporterModel BindingModel GoNamesModel ChecksModel.
Import ListNotations.
Local Open Scope string_scope.

(** * Clients *)

(** clients_generator.go:496-499 and 229-232: the generated clients contain the transport, that isn't relevant here, and the
    path.  The resource is represented by the key that it has inside the version. *)
Record client := MkClient { c_resource : key; c_path : string }.

(** clients_generator.go:250-255: the method of the client of a service that returns the client of the root of a version;
    [path] is the one given to [NewClient] (clients_generator.go:236-241). *)
Definition version_client (path : string) (v : version) : client :=
  MkClient "root" (path_join [path; version_segment v]).

(** clients_generator.go:541-567: the methods generated for locators.  The identifier is used only for variable locators.  [None]
    when the locator doesn't have a target: then the generator panics (clients_generator.go:544). *)
Definition locate (c : client) (l : locator) (id : string) : option client :=
  match l_target l with
  | None => None
  | Some k => Some (MkClient k (path_join [c_path c; if l_variable l then id else locator_segment l]))
  end.

(** A sequence of calls to those methods. *)
Fixpoint locate_all (c : client) (path : list (locator * string)) : option client :=
  match path with
  | [] => Some c
  | (l, id) :: path => match locate c l id with Some c => locate_all c path | None => None end
  end.

(** clients_generator.go:519-528: the path of the requests of a method. *)
Definition request_path (c : client) (m : method) : string :=
  if String.eqb (method_segment m) "" then c_path c else path_join [c_path c; method_segment m].

(** clients_generator.go:533-538: the path of the request of the metadata, only for the root resource. *)
Definition metadata_path (c : client) : string := c_path c.

(** * Tree of paths *)

(** The values of type [interface{}] used to build the tree: nil, or a map. *)
Inductive branch := Nothing | Branch (l : list (string * branch)).

(** metrics_generator.go:206-211: the label of a locator. *)
Definition locator_label (l : locator) : string := if l_variable l then "-" else locator_segment l.

(** metrics_generator.go:192-216 [resourceBranch].  The fuel limits the depth: the function doesn't terminate for resources
    that lead to themselves. *)
Fixpoint resource_branch (fuel : nat) (v : version) (k : option key) : outcome branch :=
  match fuel with
  | O => OutOfFuel
  | S fuel =>
      match k with
      | None => Panics
      | Some k =>
          match mget k (v_resources v) with
          | None => Panics
          | Some r =>
              let actions := filter is_action (r_methods r) in
              if Nat.eqb (length (r_locators r)) 0 && Nat.eqb (length actions) 0 then Done Nothing
              else
                let start := fold_left (fun b m => mset (method_segment m) Nothing b) actions [] in
                match
                  fold_left (fun b l =>
                    match b with
                    | Done b =>
                        match resource_branch fuel v (l_target l) with
                        | Done x => Done (mset (locator_label l) x b)
                        | Panics => Panics
                        | OutOfFuel => OutOfFuel
                        end
                    | other => other
                    end) (r_locators r) (Done start)
                with
                | Done b => Done (Branch b)
                | Panics => Panics
                | OutOfFuel => OutOfFuel
                end
          end
      end
  end.

(** metrics_generator.go:158-164: the loop of the versions of a service.  The root of a version is looked up with its name
    (pkg/concepts/version.go:188-190). *)
Definition service_branch (fuel : nat) (s : service) : outcome (list (string * branch)) :=
  fold_left (fun b v =>
    match b with
    | Done b =>
        match resource_branch fuel v (match root v with Some _ => Some "root" | None => None end) with
        | Done x => Done (mset (version_segment v) x b)
        | Panics => Panics
        | OutOfFuel => OutOfFuel
        end
    | other => other
    end) (versions s) (Done []).

(** metrics_generator.go:156-170: the tree for all the services.  The conversion of the tree to JSON
    (metrics_generator.go:171-178) isn't modelled. *)
Definition path_tree (fuel : nat) (m : model) : outcome branch :=
  match
    fold_left (fun b s =>
      match b with
      | Done b =>
          match service_branch fuel s with
          | Done x => Done (mset (service_segment s) (Branch x) b)
          | Panics => Panics
          | OutOfFuel => OutOfFuel
          end
      | other => other
      end) (services m) (Done [])
  with
  | Done b => Done (Branch [("api", Branch b)])
  | Panics => Panics
  | OutOfFuel => OutOfFuel
  end.

(** * Names *)

(** clients_generator.go:1251-1261: the tables of names that are already used. *)
Definition builtin_fields : list string := ["err"; "status"].
Definition builtin_getters : list string := ["Error"; "Status"].
Definition builtin_setters : list string := [].

(** clients_generator.go:1243-1249 [avoidBuiltin] *)
Definition avoid_builtin (n : string) (builtins : list string) : string :=
  if existsb (String.eqb n) builtins then n ++ "_" else n.

(** clients_generator.go:1039-1043 [fieldName] *)
Definition client_field (p : parameter) : string := avoid_builtin (go_private (p_name p)) builtin_fields.

(** json_generator.go:1569-1571 [parameterFieldName] *)
Definition json_field (p : parameter) : string := go_private (p_name p).

(** The name given with an annotation, or else the public name. *)
Definition public_or (annotated : string) (n : name) : string := if String.eqb annotated "" then go_public n else annotated.

(** clients_generator.go:1063-1070 [getterName] and 1076-1083 [setterName] *)
Definition client_getter (p : parameter) : string := avoid_builtin (public_or (go_name (p_annots p)) (p_name p)) builtin_getters.
Definition client_setter (p : parameter) : string := avoid_builtin (public_or (go_name (p_annots p)) (p_name p)) builtin_setters.

(** clients_generator.go:1111-1125 [locatorName] and [methodName] *)
Definition locator_name (l : locator) : string := public_or (go_name (l_annots l)) (l_name l).
Definition method_name (m : method) : string := public_or (go_name (m_annots m)) (m_name m).

(** pkg/concepts/resource.go:112-114 [IsRoot].  The code compares the resource with the one stored in the version with the
    text of the name 'root'; resources are stored with the text of their names. *)
Definition is_root (r : resource) : bool := String.eqb (name_key (r_name r)) (name_key nRoot).

(** clients_generator.go:1127-1137 [clientName] *)
Definition client_name (r : resource) : string := (if is_root r then "" else public_or (go_name (r_annots r)) (r_name r)) ++ "Client".

(** clients_generator.go:1139-1160 [requestName] and 1162-1183 [responseName]; [clientRequestName] and
    [clientResponseName] of json_generator.go:1573-1617 are equal. *)
Definition request_name (r : resource) (m : method) : string :=
  (if is_root r then method_name m else public_or (go_name (r_annots r)) (r_name r) ++ method_name m) ++ "Request".
Definition response_name (r : resource) (m : method) : string :=
  (if is_root r then method_name m else public_or (go_name (r_annots r)) (r_name r) ++ method_name m) ++ "Response".

(** clients_generator.go:1185-1201 [pollRequestName] and [pollResponseName] *)
Definition poll_request_name (r : resource) : string := public_or (go_name (r_annots r)) (r_name r) ++ "PollRequest".
Definition poll_response_name (r : resource) : string := public_or (go_name (r_annots r)) (r_name r) ++ "PollResponse".

(** clients_generator.go:784-792 and 932-943: the names of the fields of the generated requests and responses. *)
Definition request_fields (m : method) : list string :=
  (["transport"; "path"; "query"; "header"] ++ map client_field (request_params m))%list.
Definition response_fields (m : method) : list string := (["status"; "header"; "err"] ++ map client_field (response_params m))%list.

(** clients_generator.go:794-840: the names of the methods of the generated requests, and 946-1006: those of the responses. *)
Definition request_methods (m : method) : list string :=
  (["Parameter"; "Header"; "Impersonate"] ++ map client_setter (request_params m) ++ ["Send"; "SendContext"])%list.
Definition response_methods (m : method) : list string :=
  (["Status"; "Header"; "Error"] ++ flat_map (fun p => [client_getter p; ("Get" ++ client_getter p)%string]) (response_params m))%list.

(** clients_generator.go:512-575: the names of the methods of the client of a resource. *)
Definition client_methods (r : resource) : list string :=
  (map method_name (r_methods r) ++ (if is_root r then ["Get"] else []) ++ map locator_name (r_locators r) ++
   (match find_method nGet r with Some _ => ["Poll"] | None => [] end))%list.
