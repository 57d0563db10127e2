(** Proofs about the versions that are read: they meet the conditions that the properties of the generated code require. *)
From Coq Require Import Ascii String Bool Arith ZArith NArith Lia Permutation List.
From Verif Require Import GoStrings GoStringsProofs GoMap GoMapProofs NamesModel NamesSpec NamesProofs ConceptsModel ConceptsSpec ConceptsProofs BindingModel ReporterModel
  ReaderModel ChecksModel ReaderSpec ReaderProofs ReaderProofs5 ReaderProofs7 ReaderProofs8 ReaderProofs10 SourceSpec SourceProofs.
From Verif Require Import ObjectsModel ObjectsSpec JsonModel JsonSpec ReadingSpec.
Import ListNotations.
Local Open Scope string_scope.

Definition no_types : version := MkVersion (new_name []) [] [] [].

Section Returned.
  Context (sd vd : string) (fs : list file) (rs0 : list report) (m : model) (rs : list report) (s : service) (v : version).
  Hypothesis E : read [[(sd, [(vd, fs)])]] rs0 = Done (ROk m, rs).
  Hypothesis Hs : in_model m s.
  Hypothesis Hv : in_service s v.
  Let w := rs_version (load_files fs (fresh (parse_using_separator vd "_"))).
  Let ds := all_decls fs.

  Lemma loaded_origin k t : type_at k w = Some t -> t_kind t <> UndefinedType -> origin ds no_types k t.
  Proof. intros H D. destruct (files_loaded fs no_types (parse_using_separator vd "_") k t H) as [X|X]; [contradiction|exact X]. Qed.

  Lemma collection_kind k t : type_at k w = Some t -> In (t_kind t) [ListType; MapType] -> collection ds k.
  Proof.
    intros H D. assert (D' : t_kind t <> UndefinedType) by (intros X; rewrite X in D; simpl in D; intuition discriminate).
    destruct (loaded_origin k t H D') as [k t P|d t Hd Hda|x t Hr Hk He|i x t Hr Hk Hi He|k x t P Hk He|k te t P Hk He].
    - exfalso. unfold predefined_kinds in P. simpl in D, P.
      repeat destruct P as [P|P]; try (injection P as _ P; rewrite <- P in D; intuition discriminate); exact P.
    - exfalso. destruct d; cbn [declared_as] in Hda; try contradiction; destruct Hda as (_ & Hk & _); rewrite Hk in D; simpl in D; intuition discriminate.
    - left. apply in_flat_map. exists (RList x). split; [exact Hr|now left].
    - left. apply in_flat_map. exists (RMap i x). split; [exact Hr|now left].
    - right. now exists x.
    - discriminate.
  Qed.

  Lemma collection_plain k t : flat_source ds -> type_at k w = Some t -> In (t_kind t) [ListType; MapType] -> plain v t.
  Proof.
    intros F H D. assert (D' : t_kind t <> UndefinedType) by (intros X; rewrite X in D; simpl in D; intuition discriminate).
    assert (R : forall r e, In r (references ds) -> In e (ref_uses r) -> ~ collection ds (key_of e) ->
      exists te, mget (key_of e) (v_types v) = Some te /\ In (t_kind te) [ScalarType; EnumType; InterfaceType; ClassType; StructType]).
    { intros r e Hr He N. destruct (reference_exists _ _ _ _ _ _ _ _ E Hs Hv r Hr (key_of e)) as (te & T1 & T2 & T3); [right; now apply in_map|].
      exists te. split; [exact T2|]. destruct (t_kind te) eqn:K; simpl; auto 9; try contradiction;
      exfalso; apply N, (collection_kind _ te T1); rewrite K; simpl; auto. }
    destruct (loaded_origin k t H D') as [k t P|d t Hd Hda|x t Hr Hk He|i x t Hr Hk Hi He|k x t P Hk He|k te t P Hk He].
    - exfalso. unfold predefined_kinds in P. simpl in D, P.
      repeat destruct P as [P|P]; try (injection P as _ P; rewrite <- P in D; intuition discriminate); exact P.
    - exfalso. destruct d; cbn [declared_as] in Hda; try contradiction; destruct Hda as (_ & Hk & _); rewrite Hk in D; simpl in D; intuition discriminate.
    - destruct (R _ x Hr) as (te & T1 & T2); [now left|exact (F _ Hr)|]. now exists (key_of x), te.
    - destruct (R _ x Hr) as (te & T1 & T2); [right; now left|exact (F _ Hr)|]. now exists (key_of x), te.
    - destruct P as [P _]. apply in_map_iff in P as ((x' & kd) & <- & P). destruct (returned_kinds _ _ _ _ _ _ E Hs Hv) as (K & _).
      destruct (K x' kd P) as (te & T1 & T2). exists x', te. split; [exact He|]. split; [exact T1|]. rewrite T2.
      unfold predefined_kinds in P. simpl in P. simpl. repeat destruct P as [P|P]; try (injection P as _ P; rewrite <- P; auto 9); contradiction.
    - discriminate.
  Qed.

  (** The types of the attributes and parameters. *)
  Lemma reference_type r : flat_source ds -> In r (references ds) ->
    exists t, mget (ref_key r) (v_types v) = Some t /\ t_kind t <> UndefinedType /\ (In (t_kind t) [ListType; MapType] -> plain v t).
  Proof.
    intros F Hr. destruct (reference_exists _ _ _ _ _ _ _ _ E Hs Hv r Hr (ref_key r) (or_introl eq_refl)) as (t & T1 & T2 & T3).
    exists t. split; [exact T2|]. split; [exact T3|]. now apply collection_plain with (ref_key r).
  Qed.

  Lemma structural_declared k t : type_at k v = Some t -> structural t -> exists d, In d ds /\ declared_as d t /\
    exists ms, Permutation (map attribute_of ms) (t_attrs t) /\ map md_ref ms = decl_refs d /\
      match d with DClass _ _ ms' _ => t_kind t = ClassType /\ ms' = ms | DStruct _ _ ms' _ => t_kind t = StructType /\ ms' = ms | _ => False end.
  Proof.
    intros H S. destruct (returned_origin _ _ _ _ _ _ _ _ E Hs Hv k t H) as [k t P|d t Hd Hda|x t Hr Hk He|i x t Hr Hk Hi He|k x t P Hk He|k te t P Hk He];
      try (destruct S as [S|S]; rewrite S in Hk; discriminate).
    - exfalso. destruct S as [S|S]; rewrite S in P; unfold predefined_kinds in P; simpl in P; intuition discriminate.
    - exists d. split; [exact Hd|]. split; [exact Hda|]. destruct d as [ans n vs doc|ans n ms doc|ans n ms doc|ans n codes doc|ans n ms doc]; cbn [declared_as] in Hda; try contradiction.
      + destruct Hda as (_ & K & _). destruct S as [S|S]; congruence.
      + exists ms. destruct Hda as (_ & K & _ & _ & _ & P). auto.
      + exists ms. destruct Hda as (_ & K & _ & _ & _ & P). auto.
    - exfalso. destruct S as [S|S]; congruence.
  Qed.

  Lemma returned_standard : standard v.
  Proof.
    destruct (returned_kinds _ _ _ _ _ _ E Hs Hv) as (K & U & _). repeat split.
    - intros k z I. apply (K k ScalarType). unfold scalar_zeros in I. simpl in I. simpl.
      repeat destruct I as [I|I]; try (injection I as <- _; auto 9); contradiction.
    - apply (K "interface" InterfaceType). simpl. auto 9.
    - intros k t H D. specialize (U k t H (or_introl D)). rewrite D in U. unfold predefined_kinds in U. simpl in U.
      repeat destruct U as [U|U]; try (injection U as <- ); try contradiction; try discriminate; eexists; unfold scalar_zeros; simpl; eauto 9.
    - intros k t H D. specialize (U k t H (or_intror D)). rewrite D in U. unfold predefined_kinds in U. simpl in U.
      repeat destruct U as [U|U]; try discriminate; try contradiction. now injection U as <-.
  Qed.

  Lemma returned_sound : flat_source ds -> sound v.
  Proof.
    intros F k t H. split.
    - intros S a Ha. destruct (structural_declared k t H S) as (d & Hd & _ & ms & P & R & _).
      apply (Permutation_in a (Permutation_sym P)) in Ha. apply in_map_iff in Ha as (x & <- & Hx). cbn [attribute_of a_type].
      apply reference_type; [exact F|]. apply in_flat_map. exists d. split; [exact Hd|]. rewrite <- R. now apply in_map.
    - intros D. destruct (returned_kinds _ _ _ _ _ _ E Hs Hv) as (_ & _ & C). destruct (C k t H) as (e & te & X & Y & _).
      + simpl in D. destruct D as [D|[D|[]]]; auto.
      + now exists e, te.
  Qed.

  Lemma returned_compiles : good_source ds -> compiles v.
  Proof.
    intros G k t H S. destruct (structural_declared k t H S) as (d & Hd & _ & ms & P & R & M). specialize (G d Hd).
    assert (N : Permutation (json_names ms) (map attribute_name (t_attrs t))).
    { unfold json_names. rewrite <- map_map. now apply Permutation_map. }
    assert (L : length ms = length (t_attrs t)) by (rewrite <- (Permutation_length P); now rewrite map_length).
    assert (X : good_members (match t_kind t with ClassType => ["kind"; "id"; "href"] | _ => [] end) ms).
    { destruct d; try contradiction; destruct M as [K ->]; rewrite K; exact G. }
    destruct X as (X1 & X2 & X3 & X4). split.
    - unfold fits, slots, reserved. destruct S as [S|S]; rewrite S in *; simpl in X4; lia.
    - repeat split.
      + now apply (Permutation_NoDup N).
      + intros I. apply X2. now apply (Permutation_in "" (Permutation_sym N)).
      + intros K a Ha I. rewrite K in X3. apply (X3 _ I). apply (Permutation_in _ (Permutation_sym N)). now apply in_map.
  Qed.
End Returned.
