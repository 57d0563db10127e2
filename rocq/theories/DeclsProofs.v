(** Proofs about the members of the generated Go types. *)
From Coq Require Import Ascii String Bool Arith Lia Permutation List.
From Verif Require Import GoStrings GoStringsProofs NamesModel NamesSpec NamesProofs ConceptsModel BindingModel BindingSpec
  BindingProofs GoNamesModel GoNamesSpec GoNamesProofs DeclsModel DeclsSpec.
Import ListNotations.
Local Open Scope string_scope.

Lemma nodup_app {A} (l m : list A) : NoDup (l ++ m) <-> NoDup l /\ NoDup m /\ (forall x, In x l -> ~ In x m).
Proof.
  induction l as [|a l IH]; simpl.
  - split; [intros H; repeat split; auto; constructor|intros (_ & H & _); exact H].
  - rewrite !NoDup_cons_iff, IH, in_app_iff. split.
    + intros (H & A1 & B1 & C1). repeat split; try tauto. intros x [->|Hx]; [tauto|auto].
    + intros ((H & A1) & B1 & C1). repeat split; try tauto; auto. intros [Hx|Hx]; [auto|].
      exact (C1 a (or_introl eq_refl) Hx).
Qed.

Lemma filter_split {A} (p : A -> bool) l : Permutation (filter (fun a => negb (p a)) l ++ filter p l) l.
Proof.
  induction l as [|a l IH]; [constructor|]. cbn [filter]. destruct (p a); cbn [negb app].
  - rewrite <- Permutation_middle. constructor. exact IH.
  - constructor. exact IH.
Qed.

Lemma go_named_public l n : go_name_or_public l n = if String.eqb (go_name l) "" then go_public n else go_name l.
Proof. reflexivity. Qed.

Lemma to_lower_not_upper c : is_upper (to_lower c) = false.
Proof. apply negb_true_iff. by_bytes c. Qed.

Lemma exported_head c r : exported (String c r) <-> is_upper c = true.
Proof.
  split; [intros (c' & r' & E & H); injection E as -> ->; exact H|intros H; exists c, r; auto].
Qed.

Lemma exported_prefix a b : a <> "" -> exported (a ++ b) <-> exported a.
Proof. destruct a as [|c a]; [contradiction|]. intros _. cbn [append]. rewrite !exported_head. tauto. Qed.

Lemma avoid_head c r : exists r', avoid_reserved (String c r) = String c r'.
Proof. unfold avoid_reserved. destruct (existsb _ _); [exists (r ++ "_")|exists r]; reflexivity. Qed.

Lemma private_not_exported n : lettered n -> ~ exported (go_private n).
Proof.
  intros (w & ws & E & H). unfold go_private. rewrite E, str_join_empty_sep. cbn [fold_right].
  destruct (w_text w) as [|c r]; [contradiction|].
  change (str_lower (String c r)) with (String (to_lower c) (str_lower r)). cbn [append].
  destruct (avoid_head (to_lower c) (str_lower r ++ fold_right append "" (map capitalize ws))) as (r' & ->).
  rewrite exported_head, to_lower_not_upper. discriminate.
Qed.

Lemma builtin_cases n l : (In n l /\ avoid_builtin n l = n ++ "_") \/ (~ In n l /\ avoid_builtin n l = n).
Proof.
  unfold avoid_builtin. destruct (existsb (String.eqb n) l) eqn:E.
  - left. split; [|reflexivity]. apply existsb_exists in E. destruct E as (x & Hx & E). apply String.eqb_eq in E. now subst.
  - right. split; [|reflexivity]. intros H. enough (existsb (String.eqb n) l = true) by congruence.
    apply existsb_exists. exists n. split; [exact H|apply String.eqb_refl].
Qed.

Lemma builtin_exported n l : exported (avoid_builtin n l) <-> exported n.
Proof.
  destruct (builtin_cases n l) as [(H & ->)|(H & ->)]; [|tauto].
  destruct n as [|c r]; [|cbn [append]; rewrite !exported_head; tauto].
  split; intros (c & r & E & U); [|discriminate]. cbn [append] in E. injection E as <- <-. vm_compute in U. discriminate.
Qed.

Lemma parameter_field_not_exported p : lettered (p_name p) -> ~ exported (parameter_field p).
Proof. intros H. unfold parameter_field. rewrite builtin_exported. exact (private_not_exported _ H). Qed.

Lemma setter_is p : parameter_setter p = go_name_or_public (p_annots p) (p_name p).
Proof. reflexivity. Qed.

(** Fields and methods. *)
Lemma disjoint_by_case (l m : list string) :
  Forall (fun x => ~ exported x) l -> Forall exported m -> forall x, In x l -> ~ In x m.
Proof. rewrite !Forall_forall. intros H1 H2 x A B. exact (H1 x A (H2 x B)). Qed.

Definition exportedb (s : string) : bool := match s with String c _ => is_upper c | EmptyString => false end.
Lemma exportedb_spec s : exportedb s = true <-> exported s.
Proof.
  destruct s as [|c r]; simpl; [split; [discriminate|intros (c & r & E & _); discriminate]|rewrite exported_head; tauto].
Qed.
Lemma forall_exported l : forallb exportedb l = true -> Forall exported l.
Proof. intros H. rewrite forallb_forall in H. apply Forall_forall. intros x Hx. apply exportedb_spec. auto. Qed.
Lemma forall_not_exported l : forallb (fun s => negb (exportedb s)) l = true -> Forall (fun x => ~ exported x) l.
Proof.
  intros H. rewrite forallb_forall in H. apply Forall_forall. intros x Hx E. apply exportedb_spec in E.
  specialize (H x Hx). rewrite E in H. discriminate.
Qed.

Definition nodupb (l : list string) : bool :=
  (fix go l := match l with [] => true | x :: r => negb (existsb (String.eqb x) r) && go r end) l.
Lemma nodupb_spec l : nodupb l = true -> NoDup l.
Proof.
  induction l as [|x l IH]; [constructor|]. change (nodupb (x :: l)) with (negb (existsb (String.eqb x) l) && nodupb l).
  intros H. apply andb_true_iff in H. destruct H as [H1 H2]. constructor; [|auto]. intros Hx.
  apply negb_true_iff in H1. enough (existsb (String.eqb x) l = true) by congruence.
  apply existsb_exists. exists x. split; [exact Hx|apply String.eqb_refl].
Qed.

Lemma avoids_sym l r : avoids l r <-> (forall x, In x r -> ~ In x l).
Proof. unfold avoids. split; intros H x A B; exact (H x B A). Qed.

Lemma fixed_then (fixed l : list string) : NoDup fixed -> NoDup (fixed ++ l) <-> NoDup l /\ avoids l fixed.
Proof. intros H. rewrite nodup_app, avoids_sym. tauto. Qed.

Lemma nodup_middle (a l b : list string) : NoDup (a ++ b) -> NoDup (a ++ l ++ b) <-> NoDup l /\ avoids l (a ++ b).
Proof.
  intros H. rewrite <- (fixed_then (a ++ b) l H).
  assert (P : Permutation (a ++ l ++ b) ((a ++ b) ++ l)).
  { rewrite <- app_assoc. apply Permutation_app_head. apply Permutation_app_comm. }
  split; intros N; [exact (Permutation_NoDup P N)|exact (Permutation_NoDup (Permutation_sym P) N)].
Qed.

(** The two getters of each attribute or parameter. *)
Lemma pairs_permutation (l : list string) : Permutation (flat_map (fun x => [x; "Get" ++ x]%string) l) (l ++ map (append "Get") l).
Proof.
  induction l as [|x l IH]; [constructor|]. cbn [flat_map app map]. constructor.
  rewrite <- Permutation_middle. constructor. exact IH.
Qed.

Lemma pairs_map {A} (f : A -> string) l :
  flat_map (fun a => [f a; "Get" ++ f a]%string) l = flat_map (fun x => [x; "Get" ++ x]%string) (map f l).
Proof. induction l as [|a l IH]; [reflexivity|]. cbn [flat_map map app]. now rewrite IH. Qed.

Lemma nodup_get (l : list string) : NoDup (map (append "Get") l) <-> NoDup l.
Proof.
  split; [apply NoDup_map_inv|]. intros H. apply FinFun.Injective_map_NoDup; [|exact H]. intros x y E.
  exact (sapp_inv_head "Get" x y E).
Qed.

Lemma nodup_pairs (l : list string) : NoDup (flat_map (fun x => [x; "Get" ++ x]%string) l) <-> NoDup l /\ no_second_getter l.
Proof.
  assert (E : NoDup (flat_map (fun x => [x; "Get" ++ x]%string) l) <-> NoDup (l ++ map (append "Get") l)).
  { split; apply Permutation_NoDup; [|apply Permutation_sym]; apply pairs_permutation. }
  rewrite E, nodup_app, nodup_get. unfold no_second_getter. split.
  - intros (A & _ & B). split; [exact A|]. intros x y Hx Hy F. apply (B x Hx). subst. now apply in_map.
  - intros (A & B). repeat split; try exact A. intros x Hx F. apply in_map_iff in F. destruct F as (y & F & Hy).
    exact (B x y Hx Hy (eq_sym F)).
Qed.

Lemma in_pairs x l : In x (flat_map (fun x => [x; "Get" ++ x]%string) l) <-> In x l \/ exists y, In y l /\ x = "Get" ++ y.
Proof.
  rewrite in_flat_map. split.
  - intros (y & Hy & [->|[<-|[]]]); [left; exact Hy|right; exists y; auto].
  - intros [H|(y & Hy & ->)]; [exists x; simpl; auto|exists y; simpl; auto].
Qed.

(** A list of reserved names such that if [GetX] is reserved then [X] also is. *)
Definition get_closed (r : list string) : Prop := forall x, In ("Get" ++ x) r -> In x r.

Lemma avoids_pairs l r : get_closed r -> avoids (flat_map (fun x => [x; "Get" ++ x]%string) l) r <-> avoids l r.
Proof.
  intros C. unfold avoids. split.
  - intros H x Hx. apply H. apply in_pairs. auto.
  - intros H x Hx. apply in_pairs in Hx. destruct Hx as [Hx|(y & Hy & ->)]; [auto|]. intros F. exact (H y Hy (C y F)).
Qed.

Lemma exported_pairs l : Forall exported l -> Forall exported (flat_map (fun x => [x; "Get" ++ x]%string) l).
Proof.
  intros H. rewrite Forall_forall in H. apply Forall_forall. intros x Hx. apply in_pairs in Hx.
  destruct Hx as [Hx|(y & _ & ->)]; [auto|]. cbn [append]. apply exported_head. reflexivity.
Qed.

(** * Objects *)
Lemma object_fields_nodup t :
  NoDup (object_fields t) <-> NoDup (map attribute_field (t_attrs t)) /\ avoids (map attribute_field (t_attrs t)) (object_fixed_fields (is_class t)).
Proof.
  rewrite <- fixed_then by (apply nodupb_spec; destruct (is_class t); reflexivity).
  unfold object_fields, object_fixed_fields. rewrite <- map_app. cbn [app].
  assert (P : Permutation (map attribute_field (filter (fun a => negb (is_builtin nBoolean (a_type a))) (t_attrs t)
      ++ filter (fun a => is_builtin nBoolean (a_type a)) (t_attrs t))) (map attribute_field (t_attrs t))).
  { apply Permutation_map, filter_split. }
  split; apply Permutation_NoDup; constructor; apply Permutation_app_head; [|apply Permutation_sym]; exact P.
Qed.

Lemma object_fields_in t x : In x (object_fields t) -> In x (object_fixed_fields (is_class t)) \/ In x (map attribute_field (t_attrs t)).
Proof.
  unfold object_fields, object_fixed_fields. rewrite !in_app_iff, !in_map_iff. simpl.
  intros [[H|[]]|[H|[(a & E & H)|(a & E & H)]]]; auto; right; exists a; apply filter_In in H; tauto.
Qed.

Lemma object_fields_case t : Forall (fun a => lettered (a_name a)) (t_attrs t) -> Forall (fun x => ~ exported x) (object_fields t).
Proof.
  intros H. apply Forall_forall. intros x Hx. apply object_fields_in in Hx. destruct Hx as [Hx|Hx].
  - assert (F : Forall (fun x => ~ exported x) (object_fixed_fields (is_class t)))
      by (apply forall_not_exported; destruct (is_class t); reflexivity).
    rewrite Forall_forall in F. auto.
  - apply in_map_iff in Hx. destruct Hx as (a & <- & Ha). rewrite Forall_forall in H. apply private_not_exported. auto.
Qed.

Lemma object_methods_eq t : object_methods t =
  (object_fixed_methods (is_class t) ++ flat_map (fun x => [x; "Get" ++ x]%string) (map attribute_accessor (t_attrs t)))%list.
Proof.
  unfold object_methods, object_fixed_methods. rewrite <- pairs_map. destruct (is_class t); reflexivity.
Qed.

Lemma object_get_closed b : get_closed (object_fixed_methods b).
Proof.
  intros x H. destruct b; cbn in H.
  - repeat destruct H as [H|H]; try discriminate; try contradiction; injection H as <-; cbn; auto 10.
  - repeat destruct H as [H|H]; try discriminate; contradiction.
Qed.

Lemma object_members t :
  Forall (fun a => lettered (a_name a)) (t_attrs t) -> Forall exported (map attribute_accessor (t_attrs t)) ->
  valid_members (object_fields t) (object_methods t) <->
  (NoDup (map attribute_field (t_attrs t)) /\ avoids (map attribute_field (t_attrs t)) (object_fixed_fields (is_class t))) /\
  (NoDup (map attribute_accessor (t_attrs t)) /\ no_second_getter (map attribute_accessor (t_attrs t)) /\
   avoids (map attribute_accessor (t_attrs t)) (object_fixed_methods (is_class t))).
Proof.
  intros HL HE. unfold valid_members. rewrite object_fields_nodup, object_methods_eq.
  rewrite fixed_then by (apply nodupb_spec; destruct (is_class t); reflexivity).
  rewrite nodup_pairs, (avoids_pairs _ _ (object_get_closed _)).
  assert (D : forall x, In x (object_fields t) -> ~ In x (object_fixed_methods (is_class t) ++
     flat_map (fun x => [x; "Get" ++ x]%string) (map attribute_accessor (t_attrs t)))).
  { apply disjoint_by_case; [exact (object_fields_case t HL)|]. apply Forall_app. split; [|exact (exported_pairs _ HE)].
    apply forall_exported. destruct (is_class t); reflexivity. }
  tauto.
Qed.

Lemma builder_members t :
  Forall (fun a => lettered (a_name a)) (t_attrs t) -> Forall exported (map attribute_accessor (t_attrs t)) ->
  valid_members (object_fields t) (builder_methods t) <->
  (NoDup (map attribute_field (t_attrs t)) /\ avoids (map attribute_field (t_attrs t)) (object_fixed_fields (is_class t))) /\
  (NoDup (map attribute_accessor (t_attrs t)) /\ avoids (map attribute_accessor (t_attrs t)) (builder_fixed_methods (is_class t))).
Proof.
  intros HL HE. unfold valid_members. rewrite object_fields_nodup.
  assert (E : builder_methods t = (((if is_class t then ["Link"; "ID"; "HREF"] else []) ++ ["Empty"])
    ++ map attribute_accessor (t_attrs t) ++ ["Copy"; "Build"])%list) by (unfold builder_methods; now rewrite <- app_assoc).
  rewrite E, nodup_middle by (apply nodupb_spec; destruct (is_class t); reflexivity).
  rewrite <- app_assoc. change (["Empty"] ++ ["Copy"; "Build"])%list with ["Empty"; "Copy"; "Build"].
  fold (builder_fixed_methods (is_class t)). rewrite <- E.
  assert (D : forall x, In x (object_fields t) -> ~ In x (builder_methods t)).
  { apply disjoint_by_case; [exact (object_fields_case t HL)|]. unfold builder_methods. apply Forall_app. split.
    - apply forall_exported. destruct (is_class t); reflexivity.
    - constructor; [apply exported_head; reflexivity|]. apply Forall_app. split; [exact HE|]. apply forall_exported. reflexivity. }
  tauto.
Qed.

(** * Requests, responses and clients *)
Lemma fields_not_exported (fixed : list string) ps : forallb (fun s => negb (exportedb s)) fixed = true ->
  Forall (fun p => lettered (p_name p)) ps -> Forall (fun x => ~ exported x) (fixed ++ map parameter_field ps).
Proof.
  intros H HL. apply Forall_app. split; [exact (forall_not_exported _ H)|]. apply Forall_forall. intros x Hx.
  apply in_map_iff in Hx. destruct Hx as (p & <- & Hp). rewrite Forall_forall in HL. apply parameter_field_not_exported. auto.
Qed.

Lemma request_members m :
  Forall (fun p => lettered (p_name p)) (request_params m) -> Forall exported (map parameter_setter (request_params m)) ->
  valid_members (request_fields m) (request_methods m) <->
  (NoDup (map parameter_field (request_params m)) /\ avoids (map parameter_field (request_params m)) ["transport"; "path"; "query"; "header"]) /\
  (NoDup (map parameter_setter (request_params m)) /\
   avoids (map parameter_setter (request_params m)) ["Parameter"; "Header"; "Impersonate"; "Send"; "SendContext"]).
Proof.
  intros HL HE. unfold valid_members.
  assert (D : forall x, In x (request_fields m) -> ~ In x (request_methods m)).
  { apply disjoint_by_case; [apply fields_not_exported; [reflexivity|exact HL]|]. unfold request_methods.
    repeat (apply Forall_app; split); [apply forall_exported; reflexivity|exact HE|apply forall_exported; reflexivity]. }
  unfold request_fields, request_methods in *. rewrite fixed_then by (apply nodupb_spec; reflexivity).
  rewrite nodup_middle by (apply nodupb_spec; reflexivity).
  change (["Parameter"; "Header"; "Impersonate"] ++ ["Send"; "SendContext"])%list with ["Parameter"; "Header"; "Impersonate"; "Send"; "SendContext"].
  tauto.
Qed.

Lemma field_not_builtin p : parameter_field p <> "status" /\ parameter_field p <> "err".
Proof.
  unfold parameter_field, avoid_builtin. destruct (existsb (String.eqb (go_private (p_name p))) builtin_fields) eqn:E.
  - apply existsb_exists in E. destruct E as (x & Hx & E). apply String.eqb_eq in E. rewrite E.
    destruct Hx as [<-|[<-|[]]]; split; discriminate.
  - split; intros F; rewrite F in E; vm_compute in E; discriminate.
Qed.

Lemma getter_not_builtin p : parameter_getter p <> "Status" /\ parameter_getter p <> "Error".
Proof.
  unfold parameter_getter, avoid_builtin. destruct (existsb (String.eqb (go_name_or_public (p_annots p) (p_name p))) builtin_getters) eqn:E.
  - apply existsb_exists in E. destruct E as (x & Hx & E). apply String.eqb_eq in E. rewrite E.
    destruct Hx as [<-|[<-|[]]]; split; discriminate.
  - split; intros F; rewrite F in E; vm_compute in E; discriminate.
Qed.

Lemma response_field_reserved ps : avoids (map parameter_field ps) ["status"; "header"; "err"] <-> ~ In "header" (map parameter_field ps).
Proof.
  unfold avoids. split.
  - intros H F. exact (H "header" F (or_intror (or_introl eq_refl))).
  - intros H x Hx F. destruct F as [<-|[<-|[<-|[]]]]; [|exact (H Hx)|]; apply in_map_iff in Hx; destruct Hx as (p & E & _);
      destruct (field_not_builtin p); contradiction.
Qed.

Lemma response_getter_reserved ps : avoids (map parameter_getter ps) ["Status"; "Header"; "Error"] <-> ~ In "Header" (map parameter_getter ps).
Proof.
  unfold avoids. split.
  - intros H F. exact (H "Header" F (or_intror (or_introl eq_refl))).
  - intros H x Hx F. destruct F as [<-|[<-|[<-|[]]]]; [|exact (H Hx)|]; apply in_map_iff in Hx; destruct Hx as (p & E & _);
      destruct (getter_not_builtin p); contradiction.
Qed.

Lemma response_get_closed : get_closed ["Status"; "Header"; "Error"].
Proof. intros x H. repeat destruct H as [H|H]; try discriminate; contradiction. Qed.

Lemma response_methods_eq m : response_methods m =
  (["Status"; "Header"; "Error"] ++ flat_map (fun x => [x; "Get" ++ x]%string) (map parameter_getter (response_params m)))%list.
Proof. unfold response_methods. now rewrite <- pairs_map. Qed.

Lemma response_methods_nodup m :
  NoDup (response_methods m) <-> NoDup (map parameter_getter (response_params m)) /\ no_second_getter (map parameter_getter (response_params m)) /\
     ~ In "Header" (map parameter_getter (response_params m)).
Proof.
  rewrite response_methods_eq, fixed_then by (apply nodupb_spec; reflexivity).
  rewrite nodup_pairs, (avoids_pairs _ _ response_get_closed), response_getter_reserved. tauto.
Qed.

Lemma response_methods_exported m : Forall exported (map parameter_getter (response_params m)) -> Forall exported (response_methods m).
Proof.
  intros HE. rewrite response_methods_eq. apply Forall_app. split; [apply forall_exported; reflexivity|exact (exported_pairs _ HE)].
Qed.

Lemma response_members m :
  Forall (fun p => lettered (p_name p)) (response_params m) -> Forall exported (map parameter_getter (response_params m)) ->
  valid_members (response_fields m) (response_methods m) <->
  (NoDup (map parameter_field (response_params m)) /\ ~ In "header" (map parameter_field (response_params m))) /\
  (NoDup (map parameter_getter (response_params m)) /\ no_second_getter (map parameter_getter (response_params m)) /\
   ~ In "Header" (map parameter_getter (response_params m))).
Proof.
  intros HL HE. unfold valid_members. rewrite response_methods_nodup. unfold response_fields at 1.
  rewrite fixed_then by (apply nodupb_spec; reflexivity). rewrite response_field_reserved.
  assert (D : forall x, In x (response_fields m) -> ~ In x (response_methods m)).
  { apply disjoint_by_case; [apply fields_not_exported; [reflexivity|exact HL]|exact (response_methods_exported m HE)]. }
  tauto.
Qed.

Lemma poll_response_members m : Forall exported (map parameter_getter (response_params m)) ->
  valid_members poll_response_fields (poll_response_methods m) <->
  NoDup (map parameter_getter (response_params m)) /\ no_second_getter (map parameter_getter (response_params m)) /\
   ~ In "Header" (map parameter_getter (response_params m)).
Proof.
  intros HE. unfold valid_members, poll_response_methods. rewrite response_methods_nodup.
  assert (N : NoDup poll_response_fields) by (apply nodupb_spec; reflexivity).
  assert (D : forall x, In x poll_response_fields -> ~ In x (response_methods m)).
  { apply disjoint_by_case; [apply forall_not_exported; reflexivity|exact (response_methods_exported m HE)]. }
  tauto.
Qed.

Lemma avoids_not_exported l r x : Forall exported l -> ~ exported x -> avoids l (r ++ [x]) <-> avoids l r.
Proof.
  intros H Hx. rewrite Forall_forall in H. unfold avoids. split.
  - intros A y Hy F. apply (A y Hy). apply in_or_app. auto.
  - intros A y Hy F. apply in_app_or in F. destruct F as [F|[<-|[]]]; [exact (A y Hy F)|]. exact (Hx (H _ Hy)).
Qed.

Lemma poll_request_members m : Forall exported (map parameter_setter (request_params m)) ->
  valid_members poll_request_fields (poll_request_methods m) <->
  NoDup (map parameter_setter (request_params m)) /\
  avoids (map parameter_setter (request_params m)) ["Parameter"; "Header"; "Interval"; "Status"; "Predicate"; "StartContext"].
Proof.
  intros HE. unfold valid_members.
  assert (N : NoDup poll_request_fields) by (apply nodupb_spec; reflexivity).
  assert (D : forall x, In x poll_request_fields -> ~ In x (poll_request_methods m)).
  { intros x Hx F. unfold poll_request_methods in F.
    assert (X : ~ exported x) by (assert (U : Forall (fun x => ~ exported x) poll_request_fields) by (apply forall_not_exported; reflexivity);
      rewrite Forall_forall in U; exact (U x Hx)).
    apply in_app_or in F. destruct F as [F|F].
    { destruct F as [<-|[<-|[]]]; apply X; apply exported_head; reflexivity. }
    apply in_app_or in F. destruct F as [F|F].
    { rewrite Forall_forall in HE. exact (X (HE x F)). }
    assert (G : forallb (fun y => negb (existsb (String.eqb y) ["Interval"; "Status"; "Predicate"; "StartContext"; "task"])) poll_request_fields = true) by reflexivity.
    rewrite forallb_forall in G. specialize (G x Hx). apply negb_true_iff in G.
    enough (existsb (String.eqb x) ["Interval"; "Status"; "Predicate"; "StartContext"; "task"] = true) by congruence.
    apply existsb_exists. exists x. split; [exact F|apply String.eqb_refl]. }
  unfold poll_request_methods at 1. rewrite nodup_middle by (apply nodupb_spec; reflexivity).
  change (["Parameter"; "Header"] ++ ["Interval"; "Status"; "Predicate"; "StartContext"; "task"])%list
    with (["Parameter"; "Header"; "Interval"; "Status"; "Predicate"; "StartContext"] ++ ["task"])%list.
  rewrite avoids_not_exported; [tauto|exact HE|]. rewrite exported_head. discriminate.
Qed.

Lemma client_members root r :
  Forall exported (map method_go_name (r_methods r)) -> Forall exported (map locator_go_name (r_locators r)) ->
  valid_members client_fields (client_methods root r) <->
  NoDup (map method_go_name (r_methods r) ++ map locator_go_name (r_locators r)) /\
  (root = true -> ~ In "Get" (map method_go_name (r_methods r) ++ map locator_go_name (r_locators r))) /\
  (find_method nGet r <> None -> ~ In "Poll" (map method_go_name (r_methods r) ++ map locator_go_name (r_locators r))).
Proof.
  intros HM HL. unfold valid_members.
  set (ms := map method_go_name (r_methods r)) in *. set (ls := map locator_go_name (r_locators r)) in *.
  set (g := if root then ["Get"] else @nil string).
  set (p := match find_method nGet r with Some _ => ["Poll"] | None => @nil string end).
  assert (EM : client_methods root r = (ms ++ g ++ ls ++ p)%list) by reflexivity.
  assert (N : NoDup client_fields) by (apply nodupb_spec; reflexivity).
  assert (D : forall x, In x client_fields -> ~ In x (client_methods root r)).
  { apply disjoint_by_case; [apply forall_not_exported; reflexivity|]. rewrite EM.
    repeat (apply Forall_app; split); [exact HM| |exact HL|]; apply forall_exported; unfold g, p; destruct root, (find_method nGet r); reflexivity. }
  assert (P : Permutation (client_methods root r) ((g ++ p) ++ (ms ++ ls))).
  { rewrite EM. rewrite (Permutation_app_comm (g ++ p)). rewrite <- !app_assoc. apply Permutation_app_head.
    rewrite (Permutation_app_comm g (ls ++ p)). rewrite <- app_assoc. apply Permutation_app_head. apply Permutation_app_comm. }
  assert (Q : NoDup (client_methods root r) <-> NoDup ((g ++ p) ++ (ms ++ ls)))
    by (split; apply Permutation_NoDup; [exact P|apply Permutation_sym; exact P]).
  rewrite Q, fixed_then by (apply nodupb_spec; unfold g, p; destruct root, (find_method nGet r); reflexivity).
  assert (A : avoids (ms ++ ls) (g ++ p) <-> (root = true -> ~ In "Get" (ms ++ ls)) /\ (find_method nGet r <> None -> ~ In "Poll" (ms ++ ls))).
  { rewrite avoids_sym. split.
    - intros H. split.
      + intros ->. apply H. left. reflexivity.
      + intros F. apply H. apply in_or_app. right. unfold p. destruct (find_method nGet r); [left; reflexivity|contradiction].
    - intros [H1 H2] x Hx. apply in_app_or in Hx. destruct Hx as [Hx|Hx].
      + unfold g in Hx. destruct root; [|destruct Hx]. destruct Hx as [<-|[]]. auto.
      + unfold p in Hx. destruct (find_method nGet r); [|destruct Hx]. destruct Hx as [<-|[]]. apply H2. discriminate. }
  tauto.
Qed.

(** * Code that reads and writes the parameters *)
Lemma json_field_iff p : json_parameter_field p = parameter_field p <-> ~ In (go_private (p_name p)) ["err"; "status"].
Proof.
  unfold json_parameter_field, parameter_field. destruct (builtin_cases (go_private (p_name p)) builtin_fields) as [(H & ->)|(H & ->)].
  - split; [|contradiction]. intros E. exfalso. assert (L := f_equal String.length E). rewrite sapp_length in L. cbn in L.
    revert L. generalize (String.length (go_private (p_name p))). intros n. induction n; [discriminate|]. intros L. injection L. exact IHn.
  - split; [intros _; exact H|reflexivity].
Qed.

(** * Names written as identifiers *)
Lemma go_named_identifier l n t : n = parse_using_case t -> camel_identifier t -> not_renamed l "go" -> go_name_or_public l n = t.
Proof.
  intros -> H N. unfold go_name_or_public. cbv zeta. unfold go_name. rewrite (text_not_renamed _ _ N), (public_of_parse t H). reflexivity.
Qed.

Lemma go_named_renamed l n s : renamed l "go" s -> go_name_or_public l n = s.
Proof.
  intros H. apply text_renamed in H as [E H]. unfold go_name_or_public. cbv zeta. unfold go_name. rewrite E.
  destruct (String.eqb_spec s ""); [contradiction|reflexivity].
Qed.

Lemma identifier_exported t c r : camel_identifier t -> t = String c r -> is_upper c = true -> exported t.
Proof. intros _ E H. exists c, r. auto. Qed.

Lemma parse_word_text s : s <> "" -> w_text (parse_word s) <> "".
Proof. intros H. unfold parse_word. destruct (_ && _); cbn [new_initialism new_word w_text]; [exact H|destruct s; [contradiction|discriminate]]. Qed.

Lemma process_first t a l : t <> "" -> a <> "" -> exists w ws, process_chunks t (a :: l) = w :: ws /\ w_text w <> "".
Proof.
  intros Ht Ha. destruct l as [|b l].
  - exists (parse_word a), []. split; [reflexivity|exact (parse_word_text a Ha)].
  - rewrite process_pair. destruct (Nat.eqb (String.length a) 1 && is_upper_str a && is_lower_str b) eqn:E1.
    { eexists _, _. split; [reflexivity|]. destruct a; [contradiction|discriminate]. }
    destruct (Nat.leb 2 (String.length a) && is_upper_str a && String.eqb b "s").
    { eexists _, _. split; [reflexivity|]. destruct a; [contradiction|discriminate]. }
    destruct (is_upper_str a && is_lower_str b) eqn:E2.
    { eexists _, _. split; [reflexivity|]. cbn [new_initialism w_text]. rewrite <- andb_assoc, E2, andb_true_r in E1.
      apply Nat.eqb_neq in E1. destruct (snoc_cases a) as [->|(p & c & ->)]; [contradiction|].
      rewrite all_but_last_snoc. intros ->. apply E1. reflexivity. }
    eexists _, _. split; [reflexivity|exact (parse_word_text t Ht)].
Qed.

Lemma parse_lettered t : t <> "" -> lettered (parse_using_case t).
Proof.
  intros H. unfold lettered. rewrite parse_using_case_process. destruct t as [|c t]; [contradiction|].
  destruct (chunks_of_sound c t) as (Hn & Ha & _). destruct (chunks_of (String c t)) as [|a l]; [contradiction|].
  destruct Ha as ((Ha & _) & _). exact (process_first _ a l H Ha).
Qed.
