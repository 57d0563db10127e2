(** Examples used to show that the hypotheses of the theorems about clients can be satisfied, and counterexamples. *)
From Coq Require Import Ascii String Bool Arith ZArith NArith Lia Permutation List.
From Verif Require Import GoStrings GoStringsProofs GoMap GoMapProofs NamesModel NamesSpec ConceptsModel ConceptsSpec ReporterModel ReaderModel ReaderSpec ReaderExamples ReaderProofs
  BindingModel BindingSpec BindingProofs GoNamesModel GoNamesSpec JsonModel ChecksModel ChecksSpec PathsModel PathsProofs OpenapiModel OpenapiSpec OpenapiProofs4 OpenapiProofs6 OpenapiExamples
  ClientsModel ClientsSpec ClientsProofs ClientsProofs2.
Import ListNotations.
Local Open Scope string_scope.

(** Decides something about the first version of a model. *)
Definition decide_first (inputs : list (list service_dir)) (f : model -> service -> version -> bool) : bool :=
  match first_version inputs with Some (m, _, s, v) => f m s v | None => false end.
Lemma decide_first_sound inputs f : decide_first inputs f = true ->
  exists m rs s v, read inputs [] = Done (ROk m, rs) /\ In s (services m) /\ In v (versions s) /\ f m s v = true.
Proof.
  unfold decide_first. destruct (first_version inputs) as [[[[m rs] s] v]|] eqn:F; [|discriminate]. intros H. exists m, rs, s, v.
  destruct (first_version_sound _ _ _ _ _ F) as (R & M & V). destruct (returned_indexed _ _ _ _ R) as [I1 I2]. split; [assumption|].
  split; [now apply services_in|]. split; [apply versions_in; [now apply I2|assumption]|assumption].
Qed.

(** Selects a path, given the positions of the locators. *)
Fixpoint pick (v : version) (k : key) (ns : list nat) : option (list locator * key) :=
  match ns with
  | [] => Some ([], k)
  | n :: ns =>
      match mget k (v_resources v) with
      | None => None
      | Some r =>
          match nth_error (r_locators r) n with
          | None => None
          | Some l =>
              match l_target l with
              | None => None
              | Some k' => match pick v k' ns with Some (p, e) => Some (l :: p, e) | None => None end
              end
          end
      end
  end.
Lemma pick_walk v ns : forall k p e, pick v k ns = Some (p, e) -> walk v k p e.
Proof.
  induction ns as [|n ns IH]; cbn [pick]; intros k p e.
  - intros [= <- <-]. constructor.
  - destruct (mget k (v_resources v)) as [r|] eqn:R; [|discriminate]. destruct (nth_error (r_locators r) n) as [l|] eqn:N; [|discriminate].
    destruct (l_target l) as [k'|] eqn:T; [|discriminate]. destruct (pick v k' ns) as [[p' e']|] eqn:P; [|discriminate]. intros [= <- <-].
    apply walk_cons with k'; [|auto]. exists r. split; [assumption|]. split; [now apply nth_error_In with n|assumption].
Qed.
Definition picked (v : version) (ns : list nat) : option (list locator * resource) :=
  match pick v "root" ns with Some (p, e) => match mget e (v_resources v) with Some r => Some (p, r) | None => None end | None => None end.
Lemma picked_leads v ns p r : picked v ns = Some (p, r) -> leads v p r.
Proof.
  unfold picked. destruct (pick v "root" ns) as [[p' e]|] eqn:P; [|discriminate]. destruct (mget e (v_resources v)) as [r'|] eqn:R; [|discriminate].
  intros [= <- <-]. exists e. split; [now apply pick_walk in P|assumption].
Qed.

(** Looks for a node. *)
Fixpoint find_node (b : branch) (ks : list string) : option branch :=
  match ks with
  | [] => Some b
  | k :: ks => match b with Branch l => match mget k l with Some x => find_node x ks | None => None end | Nothing => None end
  end.
Lemma find_node_spec ks : forall b x, node b ks x <-> find_node b ks = Some x.
Proof.
  induction ks as [|k ks IH]; intros b x; split.
  - intros N. inversion N; subst. reflexivity.
  - intros [= ->]. constructor.
  - intros N. inversion N as [|l k1 y ks' z M N']; subst. cbn [find_node]. rewrite M. now apply IH.
  - destruct b as [|l]; cbn [find_node]; [discriminate|]. destruct (mget k l) as [y|] eqn:M; [|discriminate]. intros F. apply node_inside with y; [assumption|now apply IH].
Qed.

(** A resource with two variable locators: the second one hides the first. *)
Definition ex_two_variables : list decl :=
  [DResource [] "Root"
     [RMLocator (MkLocatorDecl [] "Cluster" [LMTarget "Cluster"; LMVariable "ID"] ""); RMLocator (MkLocatorDecl [] "Node" [LMTarget "Node"; LMVariable "ID"] "")] "";
   DResource [] "Cluster" [RMLocator (MkLocatorDecl [] "Log" [LMTarget "Log"] "")] "";
   DResource [] "Node" [] ""; DResource [] "Log" [] ""].
Definition hidden (m : model) (s : service) (v : version) : bool :=
  match picked v [0; 0], path_tree 10 m with
  | Some (p, r), Done t => match find_node t (labels s v p) with None => true | Some _ => false end
  | _, _ => false
  end.
Lemma two_variables : exists inputs m rs fuel t s v path r, read inputs [] = Done (ROk m, rs) /\ path_tree fuel m = Done t /\
  In s (services m) /\ In v (versions s) /\ leads v path r /\ forall x, ~ node t (labels s v path) x.
Proof.
  assert (H : decide_first (single ex_two_variables) hidden = true) by (vm_compute; reflexivity). revert H. generalize (single ex_two_variables). intros i H. exists i.
  destruct (decide_first_sound _ _ H) as (m & rs & s & v & R & IS & IV & D). clear H. unfold hidden in D.
  destruct (picked v [0; 0]) as [[p r]|] eqn:P; [|discriminate]. destruct (path_tree 10 m) as [t| |] eqn:T; try discriminate.
  destruct (find_node t (labels s v p)) eqn:F; [discriminate|]. exists m, rs, 10, t, s, v, p, r. repeat (split; [assumption|]).
  split; [now apply picked_leads with [0; 0]|]. intros x N. apply find_node_spec in N. congruence.
Qed.

(** A model with a path of two locators and an action. *)
Definition ex_reboot : list decl :=
  [DResource [] "Root" [RMLocator (MkLocatorDecl [] "Clusters" [LMTarget "Clusters"] "")] "";
   DResource [] "Clusters" [RMLocator (MkLocatorDecl [] "Cluster" [LMTarget "Cluster"; LMVariable "ID"] "")] "";
   DResource [] "Cluster" [RMMethod (MkMethodDecl [] "Reboot" [] "")] ""].
Definition distinct_labelsb (v : version) : bool := forallb (fun p => nodupb (map label (r_locators (snd p)))) (v_resources v).
Lemma distinct_labelsb_sound v : distinct_labelsb v = true -> distinct_labels v.
Proof.
  unfold distinct_labelsb. rewrite forallb_forall. intros H path r (k & _ & M). specialize (H _ (mget_in _ _ _ M)). cbn in H. now apply nodupb_true.
Qed.
Definition plainb (s : string) : bool := negb (String.eqb s "") && negb (String.eqb s ".") && negb (String.eqb s "..") && negb (existsb (Ascii.eqb "/") (list_ascii_of_string s)).
Lemma plainb_sound s : plainb s = true -> plain_segment s.
Proof.
  unfold plainb. rewrite !andb_true_iff, !negb_true_iff. intros (((A & B) & C) & D). repeat split; try (intros ->; discriminate).
  intros I. enough (existsb (Ascii.eqb "/") (list_ascii_of_string s) = true) by congruence. apply existsb_exists. exists "/"%char. split; [assumption|reflexivity].
Qed.
Fixpoint no_bracesb (s : string) : bool :=
  match s with EmptyString => true | String c s => negb (Ascii.eqb c "{") && (negb (Ascii.eqb c "}") && no_bracesb s) end.
Lemma no_bracesb_sound s : no_bracesb s = true -> no_braces s.
Proof.
  induction s as [|c s IH]; cbn [no_bracesb no_braces]; [auto|]. rewrite !andb_true_iff, !negb_true_iff. intros (A & B & C).
  split; [intros ->; discriminate|]. split; [intros ->; discriminate|auto].
Qed.
Definition with_ids (id : string) (p : list locator) : list (locator * string) := map (fun l => (l, id)) p.
Lemma with_ids_fst id p : map fst (with_ids id p) = p.
Proof. unfold with_ids. rewrite map_map. apply map_id. Qed.

Definition reboot_check (id expected : string) (m : model) (s : service) (v : version) : bool :=
  plainb (service_segment s) && plainb (version_segment v) && no_bracesb (service_segment s) && no_bracesb (version_segment v) &&
  match picked v [0; 0] with
  | Some (p, r) =>
      match r_methods r with
      | [a] =>
          forallb (fun st => plainb (step_segment st) && no_bracesb (locator_segment (fst st))) (with_ids id p) &&
          plainb (method_segment a) && no_bracesb (method_segment a) && is_action a && Nat.eqb (length p) 2 &&
          match locate_all (version_client (url ["api"; service_segment s]) v) (with_ids id p) with
          | Some c => String.eqb (request_path c a) expected
          | None => false
          end
      | _ => false
      end
  | None => false
  end.
Lemma ex_urls : exists inputs m rs s v path r a, read inputs [] = Done (ROk m, rs) /\ In s (services m) /\ In v (versions s) /\
  leads v (map fst path) r /\ In a (r_methods r) /\ length path = 2%nat /\
  plain_segment (service_segment s) /\ plain_segment (version_segment v) /\ Forall (fun st => plain_segment (step_segment st)) path /\ plain_segment (method_segment a) /\
  no_braces (service_segment s) /\ no_braces (version_segment v) /\ no_braces (method_segment a) /\ Forall (fun st => no_braces (locator_segment (fst st))) path /\
  exists c, locate_all (version_client (url ["api"; service_segment s]) v) path = Some c /\ request_path c a = "/api/svc/v1/clusters/123/reboot".
Proof.
  assert (H : decide_first (single ex_reboot) (reboot_check "123" "/api/svc/v1/clusters/123/reboot") = true) by (vm_compute; reflexivity). revert H. generalize (single ex_reboot). intros i H. exists i.
  destruct (decide_first_sound _ _ H) as (m & rs & s & v & R & IS & IV & D). clear H. unfold reboot_check in D. rewrite !andb_true_iff in D.
  destruct D as ((((P1 & P2) & B1) & B2) & D). destruct (picked v [0; 0]) as [[p r]|] eqn:P; [|discriminate]. destruct (r_methods r) as [|a [|]] eqn:M; try discriminate.
  rewrite !andb_true_iff in D. destruct D as (((((F & P3) & B3) & A) & L) & D).
  destruct (locate_all _ _) as [c|] eqn:C; [|discriminate]. apply String.eqb_eq in D. rewrite forallb_forall in F.
  exists m, rs, s, v, (with_ids "123" p), r, a. rewrite with_ids_fst. split; [exact R|]. split; [assumption|]. split; [assumption|].
  split; [now apply picked_leads with [0; 0]|]. split; [rewrite M; now left|]. split; [unfold with_ids; rewrite map_length; now apply Nat.eqb_eq|].
  split; [now apply plainb_sound|]. split; [now apply plainb_sound|]. split.
  { apply Forall_forall. intros st I. apply F, andb_true_iff in I as [I _]. now apply plainb_sound. }
  split; [now apply plainb_sound|]. split; [now apply no_bracesb_sound|]. split; [now apply no_bracesb_sound|]. split; [now apply no_bracesb_sound|]. split.
  { apply Forall_forall. intros st I. apply F, andb_true_iff in I as [_ I]. now apply no_bracesb_sound. }
  exists c. auto.
Qed.

(** Identifiers that aren't plain segments lead somewhere else. *)
Definition escape_check (m : model) (s : service) (v : version) : bool :=
  match picked v [0; 0] with
  | Some (p, r) =>
      match r_methods r with
      | [a] =>
          match locate_all (version_client (url ["api"; service_segment s]) v) (with_ids ".." p) with
          | Some c => negb (String.eqb (request_path c a) (fill (identifiers (with_ids ".." p)) false (template s v p a))) && String.eqb (request_path c a) "/api/svc/v1/reboot"
          | None => false
          end
      | _ => false
      end
  | None => false
  end.
Lemma ex_escape : exists inputs m rs s v path r a c, read inputs [] = Done (ROk m, rs) /\ In s (services m) /\ In v (versions s) /\
  leads v (map fst path) r /\ In a (r_methods r) /\ locate_all (version_client (url ["api"; service_segment s]) v) path = Some c /\
  request_path c a <> fill (identifiers path) false (template s v (map fst path) a) /\ request_path c a = "/api/svc/v1/reboot".
Proof.
  assert (H : decide_first (single ex_reboot) escape_check = true) by (vm_compute; reflexivity). revert H. generalize (single ex_reboot). intros i H. exists i.
  destruct (decide_first_sound _ _ H) as (m & rs & s & v & R & IS & IV & D). clear H. unfold escape_check in D.
  destruct (picked v [0; 0]) as [[p r]|] eqn:P; [|discriminate]. destruct (r_methods r) as [|a [|]] eqn:M; try discriminate.
  destruct (locate_all _ _) as [c|] eqn:C; [|discriminate]. apply andb_true_iff in D as [D1 D2]. apply negb_true_iff, String.eqb_neq in D1. apply String.eqb_eq in D2.
  exists m, rs, s, v, (with_ids ".." p), r, a, c. rewrite with_ids_fst. split; [exact R|]. split; [assumption|]. split; [assumption|].
  split; [now apply picked_leads with [0; 0]|]. split; [rewrite M; now left|]. auto.
Qed.

(** A tree. *)
Definition ex_tree_value : branch :=
  Branch [("api", Branch [("svc", Branch [("v1", Branch [("clusters", Branch [("-", Branch [("reboot", Nothing)])])])])])].
Definition tree_check (m : model) (s : service) (v : version) : bool :=
  nodupb (map service_segment (services m)) && nodupb (map version_segment (versions s)) && distinct_labelsb v.
Lemma ex_tree : exists inputs m rs t s v, read inputs [] = Done (ROk m, rs) /\ path_tree 10 m = Done t /\ t = ex_tree_value /\
  In s (services m) /\ In v (versions s) /\ NoDup (map service_segment (services m)) /\ NoDup (map version_segment (versions s)) /\ distinct_labels v.
Proof.
  assert (E : match first_version (single ex_reboot) with Some (m, _, _, _) => path_tree 10 m | None => Panics end = Done ex_tree_value) by (vm_compute; reflexivity).
  assert (H : decide_first (single ex_reboot) tree_check = true) by (vm_compute; reflexivity). revert E H. generalize (single ex_reboot). intros i E H. exists i. revert E H.
  unfold decide_first. destruct (first_version i) as [[[[m rs] s] v]|] eqn:F; [|discriminate]. intros E H.
  destruct (first_version_sound _ _ _ _ _ F) as (R & M & V). destruct (returned_indexed _ _ _ _ R) as [I1 I2]. unfold tree_check in H. rewrite !andb_true_iff in H.
  destruct H as ((N1 & N2) & N3). exists m, rs, ex_tree_value, s, v. split; [assumption|]. split; [assumption|]. split; [reflexivity|].
  split; [now apply services_in|]. split; [apply versions_in; [now apply I2|assumption]|]. split; [now apply nodupb_true|]. split; [now apply nodupb_true|now apply distinct_labelsb_sound].
Qed.
