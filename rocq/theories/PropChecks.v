(** Property theorems about the checks of the models (C17 - C23, C60 - C62). *)
From Coq Require Import Ascii String Bool Arith ZArith Sorted Permutation List.
From Verif Require Import GoStrings GoMap GoMapProofs NamesModel NamesSpec ConceptsModel ConceptsSpec ReporterModel
  ReaderModel ChecksModel ReaderSpec ReaderExamples ChecksSpec ChecksProofs ChecksProofs2 LoopsProofs PathsModel
  PathsProofs ChecksExamples.
Import ListNotations.
Local Open Scope string_scope.

(** C17 *)
Theorem C17_add_accepted_iff : forall sc m,
  called ["add"] (m_name m) ->
  (no_errors (check_method sc m) <->
   accepted_add (sc_version sc) (m_params m) /\ Forall default_ok (m_params m)).
Proof. exact add_category. Qed.
Print Assumptions C17_add_accepted_iff.

Example C17_accepted : called ["add"] (m_name ex_m_add) /\ check_method (ex_scope "Add") ex_m_add = [].
Proof. vm_compute. split; reflexivity. Qed.
Example C17_rejected : called ["add"] (m_name (meth "Add" [])) /\
  check_method (ex_scope "Add") (meth "Add" []) =
  [err "Method 'ClustersMgmt.V1.Clusters.Add' should have exactly one struct parameter but it has 0"].
Proof. vm_compute. split; reflexivity. Qed.

(** C18 *)
Theorem C18_get_accepted_iff : forall sc m,
  called ["get"] (m_name m) ->
  (no_errors (check_method sc m) <->
   accepted_get (sc_version sc) (m_params m) /\ Forall default_ok (m_params m)).
Proof. exact get_category. Qed.
Print Assumptions C18_get_accepted_iff.

Theorem C18_delete_accepted_iff : forall sc m,
  called ["delete"] (m_name m) \/ called ["async"; "delete"] (m_name m) ->
  (no_errors (check_method sc m) <->
   accepted_delete (sc_version sc) (m_params m) /\ Forall default_ok (m_params m)).
Proof. exact delete_category. Qed.
Print Assumptions C18_delete_accepted_iff.

Theorem C18_update_accepted_iff : forall sc m,
  called ["update"] (m_name m) \/ called ["async"; "update"] (m_name m) ->
  (no_errors (check_method sc m) <->
   accepted_update (sc_version sc) (m_params m) /\ Forall default_ok (m_params m)).
Proof. exact update_category. Qed.
Print Assumptions C18_update_accepted_iff.

Example C18_get : called ["get"] (m_name ex_m_get) /\ check_method (ex_scope "Get") ex_m_get = [].
Proof. vm_compute. split; reflexivity. Qed.
Example C18_delete : called ["async"; "delete"] (m_name ex_m_delete) /\ check_method (ex_scope "AsyncDelete") ex_m_delete = [].
Proof. vm_compute. split; reflexivity. Qed.
Example C18_update : called ["update"] (m_name ex_m_update) /\ check_method (ex_scope "Update") ex_m_update = [].
Proof. vm_compute. split; reflexivity. Qed.
Example C18_rejected :
  check_method (ex_scope "Get") (meth "Get" [prm "Bdy" "cluster" true true None]) =
  [err "Direction of parameter 'ClustersMgmt.V1.Clusters.Get.Bdy' should be 'out'";
   err "Name of parameter 'ClustersMgmt.V1.Clusters.Get.Bdy' should be 'Body'"].
Proof. vm_compute. reflexivity. Qed.

(** C19 *)
Theorem C19_list_accepted_iff : forall sc m,
  called ["list"] (m_name m) ->
  (no_errors (check_method sc m) <->
   accepted_list (sc_version sc) (m_params m) /\ Forall default_ok (m_params m)).
Proof. exact list_category. Qed.
Print Assumptions C19_list_accepted_iff.

Theorem C19_search_accepted_iff : forall sc m,
  called ["search"] (m_name m) -> directed (m_params m) ->
  (no_errors (check_method sc m) <->
   accepted_search (sc_version sc) (m_params m) /\ Forall default_ok (m_params m)).
Proof. exact search_category. Qed.
Print Assumptions C19_search_accepted_iff.

(** The only warnings are those of the missing paging parameters. *)
Theorem C19_warnings : forall sc m w,
  In (warn w) (check_method sc m) <->
  (called ["list"] (m_name m) \/ called ["search"] (m_name m)) /\
  exists ws n, In (ws, n) [(["page"], "Page"); (["size"], "Size"); (["total"], "Total")] /\ lacks ws m /\
    w = "Method '" ++ dotted [sc_service sc; v_name (sc_version sc); sc_resource sc; sc_method sc] ++
        "' doesn't have a '" ++ n ++ "' parameter".
Proof. exact method_warnings. Qed.
Print Assumptions C19_warnings.

Example C19_list : called ["list"] (m_name ex_m_list) /\ check_method (ex_scope "List") ex_m_list =
  [warn "Method 'ClustersMgmt.V1.Clusters.List' doesn't have a 'Size' parameter";
   warn "Method 'ClustersMgmt.V1.Clusters.List' doesn't have a 'Total' parameter"].
Proof. vm_compute. split; reflexivity. Qed.
Example C19_search : called ["search"] (m_name ex_m_search) /\ directed (m_params ex_m_search) /\
  check_method (ex_scope "Search") ex_m_search =
  [warn "Method 'ClustersMgmt.V1.Clusters.Search' doesn't have a 'Page' parameter"].
Proof.
  split; [reflexivity|]. split; [|vm_compute; reflexivity].
  apply Forall_forall. intros p H. simpl in H. repeat destruct H as [<-|H]; simpl; auto.
Qed.

(** C20 *)
Theorem C20_post_accepted_iff : forall sc m,
  called ["post"] (m_name m) ->
  (no_errors (check_method sc m) <->
   accepted_post (sc_version sc) (m_params m) /\ Forall default_ok (m_params m)).
Proof. exact post_category. Qed.
Print Assumptions C20_post_accepted_iff.

Example C20_post : called ["post"] (m_name ex_m_post) /\ check_method (ex_scope "Post") ex_m_post = [].
Proof. vm_compute. split; reflexivity. Qed.
Example C20_rejected : check_method (ex_scope "Post") (meth "Post" [prm "A" "cluster" true false None]) =
  [err "Method 'ClustersMgmt.V1.Clusters.Post' should have at most one output parameter but it has 0"].
Proof. vm_compute. reflexivity. Qed.

(** C21 *)
Theorem C21_default_accepted_iff : forall sc p, no_errors (check_parameter sc p) <-> default_ok p.
Proof. exact check_parameter_spec. Qed.
Print Assumptions C21_default_accepted_iff.

(** For the methods that aren't in any category only the default values are checked. *)
Theorem C21_actions_accepted_iff : forall sc m,
  ~ In (map w_text (n_words (m_name m))) known_methods ->
  (no_errors (check_method sc m) <-> Forall default_ok (m_params m)).
Proof. exact action_category. Qed.
Print Assumptions C21_actions_accepted_iff.

Example C21_action : ~ In (map w_text (n_words (m_name ex_m_action))) known_methods /\
  check_method (ex_scope "Reboot") ex_m_action = [].
Proof. split; [|vm_compute; reflexivity]. vm_compute. intros H. repeat destruct H as [H|H]; try discriminate; contradiction. Qed.
Example C21_default : default_ok (prm "A" "integer" true false (Some (LInt 3))) /\
  ~ default_ok (prm "A" "long" true false (Some (LInt 3))).
Proof. split; [reflexivity|discriminate]. Qed.
Example C21_rejected : check_parameter (ex_scope "Reboot") (prm "A" "long" true false (Some (LInt 3))) =
  [err "Type of default value of parameter 'ClustersMgmt.V1.Clusters.Reboot.A' should be 'Long'"].
Proof. vm_compute. reflexivity. Qed.

(** C22 *)
Theorem C22_loops_detected_exactly : forall v sn fuel,
  targets_exist v -> List.length (v_resources v) <= fuel ->
  (check_locator_loops fuel sn v = Panics <-> root v = None \/ has_dead_end v) /\
  (forall rs, check_locator_loops fuel sn v = Done rs -> ((exists m, In (err m) rs) <-> has_loop v)) /\
  check_locator_loops fuel sn v <> OutOfFuel.
Proof. exact loops_exact. Qed.
Print Assumptions C22_loops_detected_exactly.

Theorem C22_messages_describe_loops : forall v sn fuel rs msg,
  check_locator_loops fuel sn v = Done rs -> In (err msg) rs ->
  exists pre s, simple_loop v (pre ++ [s]) /\ blames sn v msg s /\
    (pre <> [] -> forall x, In x (pre ++ [s])%list -> exists note, In (info note) rs /\ describes sn v note x).
Proof. exact loop_messages. Qed.
Print Assumptions C22_messages_describe_loops.

Theorem C22_every_loop_reported : forall v sn fuel rs loop,
  check_locator_loops fuel sn v = Done rs -> simple_loop v loop ->
  exists s msg, In s loop /\ In (err msg) rs /\ blames sn v msg s.
Proof. exact every_loop_blamed. Qed.
Print Assumptions C22_every_loop_reported.

Example C22_loop : check_locator_loops 3 (parse_using_case "Mgmt") ex_loop_version =
  Done [err "Locator 'Siblings' defined in resource 'Mgmt.V1.Cluster' introduces a loop, see the details below";
    info "First locator of the loop is 'Cluster' defined in resource 'Mgmt.V1.Clusters' and targeting resource 'Mgmt.V1.Cluster'";
    info "Last locator of the loop is 'Siblings' defined in resource 'Mgmt.V1.Cluster' and targeting resource 'Mgmt.V1.Clusters'";
    err "Locator 'Self' introduces a loop, it is defined in resource 'Mgmt.V1.Cluster' and targets that same resource"].
Proof. vm_compute. reflexivity. Qed.
Example C22_no_loop : check_locator_loops 4 (parse_using_case "Mgmt") ex_tree_version = Done [].
Proof. vm_compute. reflexivity. Qed.
Example C22_dead_end : check_locator_loops 2 (parse_using_case "Mgmt") ex_dead_version = Panics.
Proof. vm_compute. reflexivity. Qed.
Example C22_targets : targets_exist ex_loop_version /\ List.length (v_resources ex_loop_version) = 3.
Proof.
  split; [|vm_compute; reflexivity]. intros k r l k' Hr Hl Ht. apply mget_in in Hr. vm_compute in Hr.
  repeat destruct Hr as [Hr|Hr]; try contradiction; injection Hr as <- <-; simpl in Hl;
    repeat destruct Hl as [Hl|Hl]; try contradiction; subst l; injection Ht as <-; eexists; vm_compute; reflexivity.
Qed.

(** C23 *)
Theorem C23_paths_complete : forall v r,
  root v = Some r -> ~ has_dead_end v -> targets_exist v -> ~ has_loop v ->
  exists n ps, (forall fuel, n <= fuel -> paths fuel v = Done ps) /\
    (forall p, In p ps <-> p <> [] /\ exists k, walk v "root" p k) /\
    StronglySorted (fun p q => List.length p <= List.length q) ps /\
    ((forall k r, mget k (v_resources v) = Some r -> NoDup (r_locators r)) -> NoDup ps).
Proof. exact paths_spec. Qed.
Print Assumptions C23_paths_complete.

Theorem C23_loops_dont_terminate : forall v r,
  root v = Some r -> forall fuel ps, paths fuel v = Done ps -> ~ has_loop v.
Proof. exact paths_no_loop. Qed.
Print Assumptions C23_loops_dont_terminate.

(** The models that the reader returns satisfy the conditions. *)
Theorem C23_returned_models_have_paths : forall inputs rs0 m rs s v,
  read inputs rs0 = Done (ROk m, rs) -> in_model m s -> in_service s v ->
  (exists r, root v = Some r) /\ ~ has_dead_end v /\ targets_exist v /\ ~ has_loop v.
Proof. exact returned_no_loops. Qed.
Print Assumptions C23_returned_models_have_paths.

Definition path_names (o : outcome (list (list locator))) : option (list (list string)) :=
  match o with Done ps => Some (map (map (fun l => snake (l_name l))) ps) | _ => None end.
Example C23_paths : path_names (paths 5 ex_tree_version) =
  Some [["clusters"]; ["nodes"]; ["clusters"; "cluster"]; ["clusters"; "cluster"; "nodes"]].
Proof. vm_compute. reflexivity. Qed.
Example C23_tree : exists r, root ex_tree_version = Some r /\
  (forall fuel ps, paths fuel ex_tree_version = Done ps -> ~ has_loop ex_tree_version).
Proof. eexists. split; [reflexivity|]. apply paths_no_loop with (1 := eq_refl). Qed.
Example C23_loop : paths 50 ex_loop_version = OutOfFuel.
Proof. vm_compute. reflexivity. Qed.

(** C60 *)
Theorem C60_returned_methods_accepted : forall inputs rs0 m rs s v k r x,
  read inputs rs0 = Done (ROk m, rs) -> in_model m s -> in_service s v ->
  mget k (v_resources v) = Some r -> In x (r_methods r) ->
  directed (m_params x) /\ accepted_method v x.
Proof. exact returned_methods. Qed.
Print Assumptions C60_returned_methods_accepted.

Example C60_model : succeeds (read [[("svc", [("v1", ex_files)])]] []) = true.
Proof. vm_compute. reflexivity. Qed.

(** C61 *)
Theorem C61_reports_name_the_culprit : forall sc m r,
  In r (check_method sc m) ->
  mentions (dotted [sc_service sc; v_name (sc_version sc); sc_resource sc; sc_method sc]) (rp_message r) \/
  exists p, In p (m_params m) /\
    mentions (dotted [sc_service sc; v_name (sc_version sc); sc_resource sc; sc_method sc; p_name p]) (rp_message r).
Proof. exact method_reports_named. Qed.
Print Assumptions C61_reports_name_the_culprit.

Example C61_report : check_method (ex_scope "Delete") (meth "Delete" [prm "A" "node" false true None]) =
  [err "Type of parameter 'ClustersMgmt.V1.Clusters.Delete' should be scalar but it is struct";
   err "Direction of parameter 'ClustersMgmt.V1.Clusters.Delete.A' must be 'in'"].
Proof. vm_compute. reflexivity. Qed.

(** C62 *)
Theorem C62_read_terminates : forall inputs rs0,
  (read inputs rs0 = Panics <->
   exists s v, in_model (g_model (load_inputs inputs rs0)) s /\ in_service s v /\
     (root v = None \/ has_dead_end v)) /\
  read inputs rs0 <> OutOfFuel.
Proof. exact read_outcome. Qed.
Print Assumptions C62_read_terminates.

Example C62_panics : read [[("svc", [("v1", [])])]] [] = Panics.
Proof. vm_compute. reflexivity. Qed.
Example C62_empty : succeeds (read [[("svc", [])]] []) = true.
Proof. vm_compute. reflexivity. Qed.
