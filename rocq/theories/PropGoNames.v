(** Property theorems about Go names and packages (C52 and C57). *)
From Coq Require Import Ascii String Bool Arith List.
From Verif Require Import GoStrings NamesModel NamesSpec ConceptsModel BindingModel BindingSpec
  GoNamesModel GoNamesSpec GoNamesProofs.
Import ListNotations.
Local Open Scope string_scope.

(** C52 *)
Theorem C52_names_are_not_keywords : forall n,
  ~ In (go_public n) go_keywords /\ ~ In (go_private n) go_keywords.
Proof. exact (fun n => conj (avoid_not_keyword _) (avoid_not_keyword _)). Qed.
Print Assumptions C52_names_are_not_keywords.

Theorem C52_other_words_are_kept : forall w, ~ In w go_keywords -> avoid_reserved w = w.
Proof. exact avoid_other. Qed.
Print Assumptions C52_other_words_are_kept.

Theorem C52_words_stay_distinct : forall a b,
  (forall k, In k go_keywords -> a <> k ++ "_") -> (forall k, In k go_keywords -> b <> k ++ "_") ->
  avoid_reserved a = avoid_reserved b -> a = b.
Proof. exact avoid_injective. Qed.
Print Assumptions C52_words_stay_distinct.

Theorem C52_public_name_of_identifier : forall t, camel_identifier t -> go_public (parse_using_case t) = t.
Proof. exact public_of_parse. Qed.
Print Assumptions C52_public_name_of_identifier.

Theorem C52_object_names : forall t s,
  (renamed (t_annots t) "go" s -> object_name t = s) /\
  (not_renamed (t_annots t) "go" -> object_name t = go_public (t_name t)).
Proof. exact (fun t s => conj (object_name_renamed t s) (object_name_default t)). Qed.
Print Assumptions C52_object_names.

(** Different identifiers may have the same private name. *)
Theorem C52_private_names_distinct_refuted : exists t u,
  camel_identifier t /\ camel_identifier u /\ t <> u /\
  go_private (parse_using_case t) = go_private (parse_using_case u).
Proof.
  exists "ID", "Id". split; [|split; [|split; [discriminate|vm_compute; reflexivity]]].
  - exists "I"%char, "D". vm_compute. auto.
  - exists "I"%char, "d". vm_compute. auto.
Qed.
Print Assumptions C52_private_names_distinct_refuted.

Example C52_private_keyword : go_private (parse_using_case "Type") = "type_" /\ go_private (parse_using_case "CloudProvider") = "cloudProvider".
Proof. vm_compute. auto. Qed.
Example C52_identifier : camel_identifier "AWSCluster" /\ go_public (parse_using_case "AWSCluster") = "AWSCluster".
Proof. split; [|vm_compute; reflexivity]. exists "A"%char, "WSCluster". vm_compute. auto. Qed.

(** C57 *)
Theorem C57_version_packages_distinct : forall s v s' v',
  plain_segment (squeezed s) -> plain_segment (squeezed v) -> plain_segment (squeezed s') -> plain_segment (squeezed v') ->
  version_package s v = version_package s' v' -> squeezed s = squeezed s' /\ squeezed v = squeezed v'.
Proof. exact version_packages_distinct. Qed.
Print Assumptions C57_version_packages_distinct.

Theorem C57_imports_distinct : forall base s v s' v', base <> "" ->
  plain_segment (squeezed s) -> plain_segment (squeezed v) -> plain_segment (squeezed s') -> plain_segment (squeezed v') ->
  (version_import base s v = version_import base s' v' -> squeezed s = squeezed s' /\ squeezed v = squeezed v') /\
  (service_import base s = service_import base s' -> squeezed s = squeezed s').
Proof. exact imports_distinct. Qed.
Print Assumptions C57_imports_distinct.

Theorem C57_selectors : forall base s v, base <> "" -> plain_segment (squeezed s) -> plain_segment (squeezed v) ->
  version_selector s v = squeezed v /\ path_base (version_import base s v) = version_selector s v /\
  service_selector s = squeezed s /\ path_base (service_import base s) = service_selector s.
Proof. exact version_selector_spec. Qed.
Print Assumptions C57_selectors.

(** The import of the metrics package isn't where the package is generated. *)
Theorem C57_metrics_import_refuted : exists base,
  path_base (metrics_import base) <> metrics_package /\ path_base (errors_import base) = errors_package /\
  path_base (helpers_import base) = helpers_package.
Proof. exists "github.com/acme/sdk". vm_compute. split; [discriminate|auto]. Qed.
Print Assumptions C57_metrics_import_refuted.

Example C57_packages :
  let s := parse_using_separator "clusters_mgmt" "_" in
  let v := parse_using_separator "v1" "_" in
  plain_segment (squeezed s) /\ plain_segment (squeezed v) /\
  version_package s v = "clustersmgmt/v1" /\ version_import "a/../b/" s v = "b/clustersmgmt/v1" /\ version_selector s v = "v1".
Proof.
  vm_compute. repeat split; try discriminate; intros H; repeat destruct H as [H|H]; try discriminate; contradiction.
Qed.
