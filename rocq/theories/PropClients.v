(** Properties of the URLs used by the generated clients, and of the tree of paths. *)
From Coq Require Import Ascii String Bool Arith ZArith List.
From Verif Require Import GoStrings GoMap NamesModel ConceptsModel ReporterModel ReaderModel ReaderSpec BindingModel BindingSpec GoNamesSpec JsonModel ChecksModel ChecksSpec
  OpenapiSpec ClientsModel ClientsSpec ClientsProofs ClientsProofs2 ClientsExamples.
Import ListNotations.
Local Open Scope string_scope.

(** C39: the client of a resource is reached with one call for each locator of a path that leads to it, and the path of the
    requests of its methods contains the segment of each of those calls. *)
Theorem C39_request_paths : forall v base path r m, base <> [] -> Forall plain_segment base -> plain_segment (version_segment v) ->
  Forall (fun st => plain_segment (step_segment st)) path -> (method_segment m = "" \/ plain_segment (method_segment m)) ->
  leads v (map fst path) r ->
  exists c, locate_all (version_client (url base) v) path = Some c /\ mget (c_resource c) (v_resources v) = Some r /\
    request_path c m = url (base ++ version_segment v :: map step_segment path ++ method_segments m)%list /\
    metadata_path (version_client (url base) v) = url (base ++ [version_segment v])%list.
Proof. exact client_paths. Qed.
Print Assumptions C39_request_paths.

(** With the usual base that is the template of the OpenAPI specification, where the variables are replaced by the identifiers. *)
Theorem C39_templates : forall s v path r m, plain_segment (service_segment s) -> plain_segment (version_segment v) ->
  Forall (fun st => plain_segment (step_segment st)) path -> (method_segment m = "" \/ plain_segment (method_segment m)) ->
  no_braces (service_segment s) -> no_braces (version_segment v) -> no_braces (method_segment m) -> Forall (fun st => no_braces (locator_segment (fst st))) path ->
  leads v (map fst path) r ->
  exists c, locate_all (version_client (url ["api"; service_segment s]) v) path = Some c /\ mget (c_resource c) (v_resources v) = Some r /\
    request_path c m = fill (identifiers path) false (template s v (map fst path) m).
Proof. exact client_urls. Qed.
Print Assumptions C39_templates.

Example C39_reboot : exists inputs m rs s v path r a, read inputs [] = Done (ROk m, rs) /\ In s (services m) /\ In v (versions s) /\
  leads v (map fst path) r /\ In a (r_methods r) /\ length path = 2%nat /\
  plain_segment (service_segment s) /\ plain_segment (version_segment v) /\ Forall (fun st => plain_segment (step_segment st)) path /\ plain_segment (method_segment a) /\
  no_braces (service_segment s) /\ no_braces (version_segment v) /\ no_braces (method_segment a) /\ Forall (fun st => no_braces (locator_segment (fst st))) path /\
  exists c, locate_all (version_client (url ["api"; service_segment s]) v) path = Some c /\ request_path c a = "/api/svc/v1/clusters/123/reboot".
Proof. exact ex_urls. Qed.

(** That fails for identifiers that aren't plain segments, because they aren't escaped. *)
Theorem C39_identifiers_refuted : exists inputs m rs s v path r a c, read inputs [] = Done (ROk m, rs) /\ In s (services m) /\ In v (versions s) /\
  leads v (map fst path) r /\ In a (r_methods r) /\ locate_all (version_client (url ["api"; service_segment s]) v) path = Some c /\
  request_path c a <> fill (identifiers path) false (template s v (map fst path) a) /\ request_path c a = "/api/svc/v1/reboot".
Proof. exact ex_escape. Qed.
Print Assumptions C39_identifiers_refuted.

(** The tree of paths contains only the paths of the resources and of the actions. *)
Theorem C39_tree_sound : forall fuel m t ks x, path_tree fuel m = Done t -> node t ks x ->
  ks = [] \/ ks = ["api"] \/ (exists s, In s (services m) /\ ks = ["api"; service_segment s]) \/
  exists s v path r, In s (services m) /\ In v (versions s) /\ leads v path r /\
    (ks = labels s v path \/ exists a, In a (r_methods r) /\ action a /\ ks = (labels s v path ++ [method_segment a])%list).
Proof. exact tree_sound. Qed.
Print Assumptions C39_tree_sound.

(** It contains all of them when the labels of the locators of each resource are different. *)
Theorem C39_tree_complete : forall fuel m t s v path r, path_tree fuel m = Done t ->
  NoDup (map service_segment (services m)) -> NoDup (map version_segment (versions s)) ->
  distinct_labels v -> In s (services m) -> In v (versions s) -> leads v path r ->
  exists x, node t (labels s v path) x /\ (x = Nothing <-> r_locators r = [] /\ forall a, In a (r_methods r) -> ~ action a) /\
    forall a, In a (r_methods r) -> action a -> exists y, node t (labels s v path ++ [method_segment a])%list y.
Proof. exact tree_complete. Qed.
Print Assumptions C39_tree_complete.

(** The generation of the tree finishes for all the models that the reader returns. *)
Theorem C39_tree_generated : forall inputs rs0 m rs, read inputs rs0 = Done (ROk m, rs) ->
  exists n, forall fuel, (n <= fuel)%nat -> exists t, path_tree fuel m = Done t.
Proof. exact returned_tree. Qed.
Print Assumptions C39_tree_generated.

Example C39_tree : exists inputs m rs t s v, read inputs [] = Done (ROk m, rs) /\ path_tree 10 m = Done t /\ t = ex_tree_value /\
  In s (services m) /\ In v (versions s) /\ NoDup (map service_segment (services m)) /\ NoDup (map version_segment (versions s)) /\ distinct_labels v.
Proof. exact ex_tree. Qed.

(** A resource with two variable locators hides what is behind the first one. *)
Theorem C39_tree_refuted : exists inputs m rs fuel t s v path r, read inputs [] = Done (ROk m, rs) /\ path_tree fuel m = Done t /\
  In s (services m) /\ In v (versions s) /\ leads v path r /\ forall x, ~ node t (labels s v path) x.
Proof. exact two_variables. Qed.
Print Assumptions C39_tree_refuted.
