(** Sanity checks of the model against the examples of pkg/names/parser_test.go.  These are tests,
    not proofs of properties. *)
From Coq Require Import String List.
From Verif Require Import GoStrings NamesModel.
Import ListNotations.
Local Open Scope string_scope.

Definition parsed (t : string) : string := name_string (parse_using_case t).

Example parser_test_table :
  map parsed
    ["X"; "Pi"; "Max"; "Cluster"; "CloudProvider"; "CloudProviderRegion"; "IP"; "MainIP";
     "IPAddress"; "MainIPAddress"; "CPU"; "TotalCPU"; "CPUUsage"; "TotalCPUUsage"; "PiX"; "IDs";
     "ClusterIDs"; "IDsList"; "CPUs"; "ClusterCPUs"; "CPUsList"; "ClientX509CertURL"]
  = ["x"; "pi"; "max"; "cluster"; "cloud_provider"; "cloud_provider_region"; "IP"; "main_IP";
     "IP_address"; "main_IP_address"; "CPU"; "total_CPU"; "CPU_usage"; "total_CPU_usage"; "pi_x";
     "IDs"; "cluster_IDs"; "IDs_list"; "CPUs"; "cluster_CPUs"; "CPUs_list";
     "client_X509_cert_URL"].
Proof. vm_compute. reflexivity. Qed.
