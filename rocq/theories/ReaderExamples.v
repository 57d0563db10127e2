(** Source files used in the examples. *)
From Coq Require Import Ascii String Bool Arith ZArith List.
From Verif Require Import GoStrings GoMap NamesModel ConceptsModel ReporterModel ReaderModel ChecksModel.
Import ListNotations.
Local Open Scope string_scope.

Definition attr (n : string) (r : type_ref) : member_decl := MkMemberDecl [] false n r "".
Definition par (ds : list direction) (n : string) (r : type_ref) (d : option literal_decl) : param_decl :=
  MkParamDecl [] ds n r d "".

(** A version with classes, structs, enums, lists, maps, resources and errors. *)
Definition ex_cluster : decl :=
  DClass [MkAnnotationDecl "json" [("name", LDString """cl""" (Some "cl"))]] "Cluster"
    [attr "ID" (RPlain "String"); attr "Nodes" (RList "Node"); attr "State" (RPlain "ClusterState");
     MkMemberDecl [] true "Parent" (RPlain "Cluster") "The parent.";
     attr "Labels" (RMap "String" "String")] "A cluster.".
Definition ex_node : decl := DStruct [] "Node" [attr "Name" (RPlain "String")] "".
Definition ex_state : decl :=
  DEnum [] "ClusterState" [MkValueDecl [] "Ready" ""; MkValueDecl [] "Error" ""] "".
Definition ex_error : decl := DError [] "NotFound" ["404"] "It isn't there.".
Definition ex_list : method_decl :=
  MkMethodDecl [] "List"
    [par [DIn; DOut] "Page" (RPlain "Integer") (Some (LDInt "1"));
     par [DIn; DOut] "Size" (RPlain "Integer") (Some (LDInt "100"));
     par [DOut] "Total" (RPlain "Integer") None;
     par [DOut] "Items" (RList "Cluster") None] "".
Definition ex_add : method_decl :=
  MkMethodDecl [] "Add" [par [DIn; DOut] "Body" (RPlain "Cluster") None] "".
Definition ex_get : method_decl := MkMethodDecl [] "Get" [par [] "Body" (RPlain "Cluster") None] "".
Definition ex_root : decl :=
  DResource [] "Root" [RMLocator (MkLocatorDecl [] "Clusters" [LMTarget "Clusters"] "")] "".
Definition ex_clusters : decl :=
  DResource [] "Clusters"
    [RMMethod ex_list; RMMethod ex_add;
     RMLocator (MkLocatorDecl [] "Cluster" [LMTarget "Cluster"; LMVariable "ID"] "")] "The clusters.".
Definition ex_cluster_res : decl := DResource [] "Cluster" [RMMethod ex_get] "".
Definition ex_files : list file :=
  [("a.model", [ex_root; ex_clusters; ex_cluster_res]); ("b.model", [ex_cluster; ex_node; ex_state; ex_error])].

(** The same with a type that isn't declared, a resource that isn't declared, and repetitions. *)
Definition ex_bad_files : list file :=
  [("a.model", [ex_root; ex_cluster; ex_state; ex_state]); ("b.model", [ex_error; ex_error; ex_root])].

(** A root and nothing else. *)
Definition ex_empty_root : decl := DResource [] "Root" [] "".

(** Two versions: the first uses a type that it doesn't declare, the second uses that name before
    declaring it. *)
Definition ex_uses : list decl := [ex_empty_root; DStruct [] "Foo" [attr "Bar" (RPlain "Bar")] ""].
Definition ex_uses_and_declares : list decl :=
  [ex_empty_root; DStruct [] "Foo" [attr "Bar" (RPlain "Bar")] ""; DStruct [] "Bar" [] ""].

(** A version that declares a type twice. *)
Definition ex_twice : list decl :=
  [ex_empty_root; DStruct [] "Bar" [attr "A" (RPlain "String")] ""; DStruct [] "Bar" [attr "B" (RPlain "Long")] ""].

(** A struct that takes the name of a list type. *)
Definition ex_hijack : list decl :=
  [ex_empty_root; DStruct [] "Foo" [] ""; DStruct [] "FooList" [] ""].

(** A list type used through its name before it exists, and after it exists. *)
Definition ex_plain_before : list decl :=
  [ex_empty_root; DStruct [] "Foo" [] ""; DStruct [] "Bar" [attr "A" (RPlain "FooList"); attr "B" (RList "Foo")] ""].
Definition ex_plain_after : list decl :=
  [ex_empty_root; DStruct [] "Foo" [] ""; DStruct [] "Bar" [attr "A" (RList "Foo"); attr "B" (RPlain "FooList")] ""].

(** Results, without the reports. *)
Definition fails (msg : string) (o : outcome (read_result * list report)) : bool :=
  match o with
  | Done (RError m, _) => String.eqb m msg
  | _ => false
  end.
Definition succeeds (o : outcome (read_result * list report)) : bool :=
  match o with
  | Done (ROk _, _) => true
  | _ => false
  end.
