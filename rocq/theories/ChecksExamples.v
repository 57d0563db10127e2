(** Methods and locators used in the examples. *)
From Coq Require Import Ascii String Bool Arith ZArith List.
From Verif Require Import GoStrings GoMap NamesModel ConceptsModel ReporterModel ReaderModel ChecksModel ReaderSpec
  ReaderExamples.
Import ListNotations.
Local Open Scope string_scope.

(** The version that is loaded from the example files, and a scope inside it. *)
Definition ex_version : version :=
  ensure_lists (rs_version (load_files ex_files (fresh (parse_using_separator "v1" "_")))).
Definition ex_scope (n : string) : scope :=
  MkScope (parse_using_separator "clusters_mgmt" "_") ex_version (parse_using_case "Clusters") (parse_using_case n).
Definition prm (n : string) (k : key) (i o : bool) (d : option literal) : parameter :=
  MkParameter (parse_using_case n) k i o d "" [].
Definition meth (n : string) (ps : list parameter) : method := MkMethod (parse_using_case n) ps "" [].

Definition ex_m_add : method := meth "Add" [prm "Body" "cluster" true true None; prm "Dry" "boolean" true false (Some (LBool true))].
Definition ex_m_get : method := meth "Get" [prm "Body" "cluster" false true None; prm "Dry" "boolean" true false None].
Definition ex_m_delete : method := meth "AsyncDelete" [prm "Dry" "boolean" true false None].
Definition ex_m_update : method := meth "Update" [prm "Body" "cluster_list" true true None].
Definition ex_m_list : method :=
  meth "List" [prm "Items" "cluster_list" false true None; prm "Page" "integer" true true (Some (LInt 1));
    prm "Search" "string" true false None].
Definition ex_m_search : method :=
  meth "Search" [prm "Body" "cluster" true false None; prm "Items" "cluster_list" false true None;
    prm "Size" "integer" true true (Some (LInt 100)); prm "Total" "integer" false true None].
Definition ex_m_post : method := meth "Post" [prm "Request" "cluster" true false None; prm "Response" "node" false true None].
Definition ex_m_action : method := meth "Reboot" [prm "When" "date" true false None].

(** Resources: the root leads to clusters, clusters to a cluster, and a cluster to clusters again. *)
Definition loc (n : string) (t : option key) : locator := MkLocator (parse_using_case n) false t "" [].
Definition res (n : string) (ls : list locator) : resource := MkResource (parse_using_case n) [] ls "" [].
Definition with_resources (l : list resource) : version :=
  fold_left (fun v r => add_resource r v) l (new_version (parse_using_separator "v1" "_")).
Definition ex_loop_version : version :=
  with_resources [res "Root" [loc "Clusters" (Some "clusters")]; res "Clusters" [loc "Cluster" (Some "cluster")];
    res "Cluster" [loc "Siblings" (Some "clusters"); loc "Self" (Some "cluster")]].
Definition ex_tree_version : version :=
  with_resources [res "Root" [loc "Clusters" (Some "clusters"); loc "Nodes" (Some "nodes")];
    res "Clusters" [loc "Cluster" (Some "cluster")]; res "Cluster" [loc "Nodes" (Some "nodes")]; res "Nodes" []].
Definition ex_dead_version : version :=
  with_resources [res "Root" [loc "Clusters" (Some "clusters")]; res "Clusters" [loc "Cluster" None]].
