(** Properties of the code that reads and writes JSON documents. *)
From Coq Require Import Ascii String Bool Arith ZArith List.
From Verif Require Import GoStrings GoMap NamesModel ConceptsModel BindingModel GoNamesModel ReporterModel ChecksModel ChecksSpec BufferModel DeclsModel DeclsExamples GoTypesModel JsonCodeModel
  JsonModel JsonSpec ObjectsSpec GoTypesSpec GoTypesExamples JsonCodeSpec JsonCodeProofs6 JsonCodeExamples.
Import ListNotations.
Local Open Scope string_scope.

(** C83: the code is generated without errors, and all the functions respect the rules of the language. *)
Theorem C83_json_code : forall pkg v, package_path pkg -> standard v -> named_well v -> json_ready v ->
  exists fs, json_code pkg v = Done (fs, []) /\ Forall (function_compiles pkg v fs) fs.
Proof. exact json_code_compiles. Qed.
Print Assumptions C83_json_code.

Example C83_json_code_example : exists v, accepted ex_code v /\ package_path go_package /\ standard v /\ named_well v /\ json_ready v /\
  count_functions v = 74 /\ forall ws, In ws [["list"]; ["search"]; ["add"]; ["post"]; ["get"]; ["update"]; ["delete"]; ["start"]] -> exists r m, In r (resources v) /\ In m (r_methods r) /\ called ws (m_name m).
Proof. exact code_example. Qed.

(** The structs need to have attributes: without them nothing is reported, and one of the functions isn't accepted by the compiler. *)
Theorem C83_empty_structs_rejected : forall pkg v k t fs, t_kind t = StructType -> t_attrs t = [] ->
  exists l fn, type_code pkg v k t = Done (l, []) /\ In fn l /\ ~ function_compiles pkg v fs fn.
Proof. exact empty_struct_wrong. Qed.
Print Assumptions C83_empty_structs_rejected.

Example C83_empty_structs_example : exists v k t, accepted ex_nothing v /\ ready v /\ mget k (v_types v) = Some t /\ t_kind t = StructType /\ t_attrs t = [].
Proof. exact nothing_example. Qed.
