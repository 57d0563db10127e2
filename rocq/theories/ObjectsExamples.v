(** Types, objects and builders used in the examples. *)
From Coq Require Import Ascii String Bool Arith ZArith NArith Lia List.
From Verif Require Import GoStrings GoMap GoMapProofs NamesModel NamesSpec ConceptsModel ReporterModel ReaderModel ChecksModel ReaderSpec
  ReaderExamples GoTimeModel ObjectsModel ObjectsSpec NamesProofs ObjectsProofs2.
Import ListNotations.
Local Open Scope string_scope.

Definition ex_thing : decl :=
  DClass [] "Thing"
    [attr "Name" (RPlain "String"); attr "Count" (RPlain "Integer"); attr "Ratio" (RPlain "Float");
     attr "When" (RPlain "Date"); attr "Enabled" (RPlain "Boolean"); attr "State" (RPlain "ClusterState");
     attr "Any" (RPlain "Interface"); attr "Node" (RPlain "Node"); attr "Nodes" (RList "Node");
     attr "Tags" (RList "String"); attr "Labels" (RMap "String" "String"); attr "Members" (RMap "String" "Node");
     MkMemberDecl [] true "Parent" (RPlain "Thing") ""; MkMemberDecl [] true "Children" (RList "Thing") ""] "".
Definition ex_two : decl := DStruct [] "Node" [attr "Name" (RPlain "String"); attr "Size" (RPlain "Long")] "".
Definition ex_things : list file := [("a.model", [ex_root; ex_thing; ex_two; ex_state])].

(** The version with those types. *)
Definition ex_v : version := ensure_lists (rs_version (load_files ex_things (fresh (parse_using_separator "v1" "_")))).
Definition ex_t : typ := match mget "thing" (v_types ex_v) with Some t => t | None => new_type (parse_using_case "Thing") end.
Definition ex_n : typ := match mget "node" (v_types ex_v) with Some t => t | None => new_type (parse_using_case "Thing") end.

(** Decision procedures for the hypotheses of the theorems. *)
Definition plainb (v : version) (t : typ) : bool :=
  match t_element t with
  | Some e =>
      match mget e (v_types v) with
      | Some te => match t_kind te with ScalarType | EnumType | InterfaceType | ClassType | StructType => true | _ => false end
      | None => false
      end
  | None => false
  end.

Lemma plainb_sound v t : plainb v t = true -> plain v t.
Proof.
  unfold plainb. intros H. destruct (t_element t) as [e|] eqn:E; [|discriminate].
  destruct (mget e (v_types v)) as [te|] eqn:Ge; [|discriminate].
  exists e, te. split; auto. split; auto. destruct (t_kind te); try discriminate H; simpl; auto 10.
Qed.

Definition standardb (v : version) : bool :=
  forallb (fun p => match mget (fst p) (v_types v) with Some t => kind_eqb (t_kind t) ScalarType | None => false end) scalar_zeros &&
  (match mget "interface" (v_types v) with Some t => kind_eqb (t_kind t) InterfaceType | None => false end) &&
  forallb (fun p =>
    match t_kind (snd p) with
    | ScalarType => existsb (fun q => String.eqb (fst p) (fst q)) scalar_zeros
    | InterfaceType => String.eqb (fst p) "interface"
    | _ => true
    end) (v_types v).

Lemma kind_eqb_true a b : kind_eqb a b = true -> a = b.
Proof. destruct a, b; cbn; congruence. Qed.

Lemma standardb_sound v : standardb v = true -> standard v.
Proof.
  unfold standardb. rewrite !andb_true_iff, !forallb_forall. intros [[H1 H2] H3]. split; [|split; [|split]].
  - intros k s I. specialize (H1 _ I). cbn in H1. destruct (mget k (v_types v)) as [t|]; [|discriminate].
    exists t. split; auto. now apply kind_eqb_true.
  - destruct (mget "interface" (v_types v)) as [t|]; [|discriminate]. exists t. split; auto. now apply kind_eqb_true.
  - intros k t G K. specialize (H3 _ (mget_in _ _ _ G)). cbn [fst snd] in H3. rewrite K in H3. apply existsb_exists in H3.
    destruct H3 as [[k' s] [I E]]. apply String.eqb_eq in E. cbn in E. subst. eauto.
  - intros k t G K. specialize (H3 _ (mget_in _ _ _ G)). cbn in H3. rewrite K in H3. now apply String.eqb_eq.
Qed.

Definition knownb (v : version) (t : typ) : bool :=
  forallb (fun a =>
    match mget (a_type a) (v_types v) with
    | Some ta => match t_kind ta with UndefinedType => false | ListType | MapType => plainb v ta | _ => true end
    | None => false
    end) (t_attrs t).

Lemma knownb_sound v t : knownb v t = true -> known v t.
Proof.
  unfold knownb. rewrite forallb_forall. intros H a I. specialize (H a I). destruct (mget (a_type a) (v_types v)) as [ta|]; [|discriminate].
  exists ta. split; auto. destruct (t_kind ta); try discriminate H; split; try discriminate; intros K; simpl in K; try (intuition discriminate);
    now apply plainb_sound.
Qed.

Lemma ex_standard : standard ex_v.
Proof. apply standardb_sound. vm_compute. reflexivity. Qed.
Lemma ex_known : known ex_v ex_t.
Proof. apply knownb_sound. vm_compute. reflexivity. Qed.

(** Builders. *)
Definition ex_node_calls (s : string) (z : Z) : list call := [CallSet 0 (VScalar (SString s)); CallSet 1 (VScalar (SInt z))].
Definition ex_node_builder (s : string) (z : Z) : object := apply_calls ex_v ex_n (new_builder ex_v ex_n) (ex_node_calls s z).
Definition ex_child : object := apply_calls ex_v ex_t (new_builder ex_v ex_t) [CallID "456"; CallLink true].
Definition ex_calls : list call :=
  [CallID "1"; CallSet 6 (VScalar (SString "a")); CallSet 7 VNil; CallSet 2 (VScalar (SInt (-5)));
   CallSet 13 (VScalar (SDate (MkDate 2024 2 29 10 20 30 0 3600))); CallSet 3 (VScalar (SBool false));
   CallSet 0 (VScalar (SAny (AMap [("a", ASlice [ANil; ABool true])])));
   CallSet 8 (VSlice [VObject (ex_node_builder "n" 7); VObject (ex_node_builder "m" 8)]);
   CallSet 12 (VSlice [VScalar (SString "x"); VScalar (SString "y")]);
   CallSet 4 (VMap [("k", VScalar (SString "v")); ("l", VScalar (SString "w"))]);
   CallSet 5 (VMap [("q", VObject (ex_node_builder "q" 9))]);
   CallSet 9 (VObject ex_child); CallSet 1 (VList "" false (VSlice [VObject ex_child]));
   CallHREF "/api"; CallSet 6 (VScalar (SString "b")); CallID "2"; CallSet 7 (VObject (ex_node_builder "z" 0))].
Definition ex_builder : object := apply_calls ex_v ex_t (new_builder ex_v ex_t) ex_calls.

(** The object built from that builder. *)
Definition ex_object : object := match build_object ex_v ex_t ex_builder with Some p => p | None => new_builder ex_v ex_t end.

Definition attr_at (t : typ) (i : nat) : attribute := nth i (t_attrs t) (MkAttribute (parse_using_case "x") "" false "" []).

(** Types with many attributes. *)
Fixpoint many (n : nat) : list attribute :=
  match n with 0 => [] | S n => MkAttribute (parse_using_case ("A" ++ itoa n)) "string" false "" [] :: many n end.
Definition big (k : kind) (n : nat) : typ := MkTyp (parse_using_case "Big") k (many n) [] None None "" [].

(** Decision procedure for well typed values. *)
Definition all2b {A B : Type} (P : A -> B -> bool) : list A -> list B -> bool :=
  fix go (l : list A) (m : list B) {struct m} : bool :=
    match m with
    | [] => match l with [] => true | _ => false end
    | b :: m => match l with a :: l => P a b && go l m | [] => false end
    end.

Fixpoint increasingb (l : list string) : bool :=
  match l with
  | s :: (t :: _) as r => match String.compare s t with Lt => increasingb r | _ => false end
  | _ => true
  end.

Fixpoint sorted_anyb (a : any) : bool :=
  match a with
  | ASlice l => forallb sorted_anyb l
  | AMap l => increasingb (map fst l) && forallb (fun p => sorted_anyb (snd p)) l
  | _ => true
  end.

Definition scalar_typedb (k : key) (t : typ) (s : scalar) : bool :=
  match t_kind t, s with
  | ScalarType, SBool _ => String.eqb k "boolean"
  | ScalarType, SInt z => (String.eqb k "integer" || String.eqb k "long") && Z.leb int64_min z && Z.leb z int64_max
  | ScalarType, SFloat _ => String.eqb k "float"
  | ScalarType, SString _ => String.eqb k "string"
  | ScalarType, SDate _ => String.eqb k "date"
  | EnumType, SString _ => true
  | InterfaceType, SAny a => sorted_anyb a
  | _, _ => false
  end.

Fixpoint typedb (v : version) (k : key) (link : bool) (x : value) {struct x} : bool :=
  match mget k (v_types v) with
  | None => false
  | Some t =>
      match t_kind t with
      | ScalarType | EnumType | InterfaceType => match x with VScalar s => scalar_typedb k t s | _ => false end
      | ClassType | StructType =>
          match x with
          | VNil => true
          | VObject o =>
              Nat.eqb (length (o_fields o)) (length (t_attrs t)) && N.ltb (o_bits o) (2 ^ N.of_nat (slots t)) &&
              (negb (kind_eqb (t_kind t) StructType) || String.eqb (o_id o) "" && String.eqb (o_href o) "") &&
              all2b (fun a y => typedb v (a_type a) (a_link a) y) (t_attrs t) (o_fields o)
          | _ => false
          end
      | ListType =>
          plainb v t &&
          match t_element t with
          | None => false
          | Some e =>
              match x with
              | VNil => true
              | VSlice l => negb link && forallb (typedb v e false) l
              | VList _ _ s => link && match s with VNil => true | VSlice l => forallb (typedb v e false) l | _ => false end
              | _ => false
              end
          end
      | MapType =>
          plainb v t &&
          match t_element t with
          | None => false
          | Some e =>
              match x with
              | VNil => true
              | VMap l => increasingb (map fst l) && forallb (fun p => typedb v e false (snd p)) l
              | _ => false
              end
          end
      | UndefinedType => false
      end
  end.

Definition object_typedb (v : version) (t : typ) (o : object) : bool :=
  Nat.eqb (length (o_fields o)) (length (t_attrs t)) && N.ltb (o_bits o) (2 ^ N.of_nat (slots t)) &&
  (negb (kind_eqb (t_kind t) StructType) || String.eqb (o_id o) "" && String.eqb (o_href o) "") &&
  all2b (fun a y => typedb v (a_type a) (a_link a) y) (t_attrs t) (o_fields o).

Lemma bounded_lt t (o : object) : N.ltb (o_bits o) (2 ^ N.of_nat (slots t)) = true -> bounded t o.
Proof.
  intros H n Hn. unfold marked. apply N.ltb_lt in H. destruct (N.eq_dec (o_bits o) 0) as [->|E].
  - rewrite N.bits_0. discriminate.
  - rewrite N.bits_above_log2; [discriminate|]. apply N.log2_lt_pow2 in H; lia.
Qed.

Lemma all2b_sound {A B} (f : A -> B -> bool) (P : A -> B -> Prop) l m :
  Forall (fun y => forall a, f a y = true -> P a y) m -> all2b f l m = true -> all2 P l m.
Proof.
  revert l. induction m as [|y m IH]; intros l F; cbn.
  - destruct l; congruence.
  - destruct l as [|a l]; [discriminate|]. inversion F; subst. rewrite andb_true_iff. intros [H1' H2']. split; auto.
Qed.

Lemma all1b_sound {A} (f : A -> bool) (P : A -> Prop) l : Forall (fun y => f y = true -> P y) l -> forallb f l = true -> all1 P l.
Proof.
  induction 1; cbn; auto. rewrite andb_true_iff. intros [H1 H2]. auto.
Qed.

Lemma increasingb_sound l : increasingb l = true -> increasing l.
Proof.
  induction l as [|s [|t l] IH]; intros H.
  - constructor.
  - constructor.
  - change (match String.compare s t with Lt => increasingb (t :: l) | _ => false end = true) in H.
    destruct (String.compare s t) eqn:E; try discriminate. constructor; auto. now apply string_compare_lt.
Qed.

Lemma sorted_anyb_sound : forall a, sorted_anyb a = true -> sorted_any a.
Proof.
  induction a using any_ind2; cbn; auto.
  - rewrite forallb_forall. intros F. induction H as [|x l H G IH]; cbn; auto. split; [apply H, F; now left|].
    apply IH. intros y I. apply F. now right.
  - rewrite andb_true_iff, forallb_forall. intros [I F]. split; [now apply increasingb_sound|]. clear I.
    induction H as [|x l H G IH]; cbn; auto. split; [apply H, F; now left|].
    apply IH. intros y I. apply F. now right.
Qed.

Lemma scalar_typedb_sound k t s : scalar_typedb k t s = true -> scalar_typed k t s.
Proof.
  unfold scalar_typedb, scalar_typed. destruct (t_kind t), s; try discriminate; auto; try (now apply String.eqb_eq); try apply sorted_anyb_sound.
  rewrite !andb_true_iff, orb_true_iff, !String.eqb_eq, !Z.leb_le. tauto.
Qed.

Lemma typedb_sound v : forall x k link, typedb v k link x = true -> typed v k link x.
Proof.
  induction x as [s| |o IH|l IH|h b s IHs IHl|l IH] using value_ind2; intros k link H.
  all: cbn in *; destruct (mget k (v_types v)) as [t|]; [|discriminate];
    destruct (t_kind t) eqn:K; auto; try discriminate;
    try (rewrite andb_true_iff in H; destruct H as [Hp H]; apply plainb_sound in Hp; split; [exact Hp|]; destruct (t_element t) as [e|]; [|discriminate]); auto; try discriminate;
    try (now apply scalar_typedb_sound).
  - rewrite !andb_true_iff in H. destruct H as [[[H1 H2] H3] H4]. apply Nat.eqb_eq in H1. split; [exact H1|].
    split; [now apply bounded_lt|]. split; [discriminate|]. eapply all2b_sound; [|exact H4].
    eapply Forall_impl; [|exact IH]. cbn. auto.
  - rewrite !andb_true_iff in H. destruct H as [[[H1 H2] H3] H4]. apply Nat.eqb_eq in H1. split; [exact H1|].
    split; [now apply bounded_lt|]. split.
    + intros _. cbn in H3. rewrite andb_true_iff, !String.eqb_eq in H3. exact H3.
    + eapply all2b_sound; [|exact H4]. eapply Forall_impl; [|exact IH]. cbn. auto.
  - rewrite andb_true_iff, negb_true_iff in H. destruct H as [H1 H2]. split; auto. eapply all1b_sound; [|exact H2].
    eapply Forall_impl; [|exact IH]. auto.
  - rewrite andb_true_iff in H. destruct H as [H1 H2]. split; auto. destruct s; auto; try discriminate.
    eapply all1b_sound; [|exact H2]. eapply Forall_impl; [|exact (IHl _ eq_refl)]. auto.
  - rewrite andb_true_iff in H. destruct H as [H1 H2]. split; [now apply increasingb_sound|].
    eapply all1b_sound; [|exact H2]. eapply Forall_impl; [|exact IH]. auto.
Qed.

Lemma object_typedb_sound v t o : object_typedb v t o = true -> object_typed v t o.
Proof.
  unfold object_typedb. rewrite !andb_true_iff. intros [[[H1 H2] H3] H4]. apply Nat.eqb_eq in H1. split; [exact H1|].
  split; [now apply bounded_lt|]. split.
  - intros K. rewrite K in H3. cbn in H3. rewrite andb_true_iff, !String.eqb_eq in H3. exact H3.
  - eapply all2b_sound; [|exact H4]. apply Forall_forall. intros. now apply typedb_sound.
Qed.

Lemma ex_object_typed : object_typed ex_v ex_t ex_object.
Proof. apply object_typedb_sound. vm_compute. reflexivity. Qed.

Definition valid_callb (v : version) (t : typ) (c : call) : bool :=
  match c with
  | CallSet i x => match nth_error (t_attrs t) i with Some a => typedb v (a_type a) (a_link a) x | None => false end
  | _ => kind_eqb (t_kind t) ClassType
  end.

Lemma valid_callb_sound v t l : forallb (valid_callb v t) l = true -> Forall (valid_call v t) l.
Proof.
  rewrite forallb_forall. intros H. apply Forall_forall. intros c I. specialize (H c I). destruct c; cbn in *;
    try (now apply kind_eqb_true). destruct (nth_error (t_attrs t) i) as [a|]; [|discriminate]. exists a. split; auto. now apply typedb_sound.
Qed.

Lemma ex_calls_valid : Forall (valid_call ex_v ex_t) ex_calls.
Proof. apply valid_callb_sound. vm_compute. reflexivity. Qed.

Definition all_fieldsb (P : nat -> attribute -> value -> bool) : nat -> list attribute -> list value -> bool :=
  fix go (i : nat) (l : list attribute) (m : list value) {struct m} : bool :=
    match m with
    | [] => match l with [] => true | _ => false end
    | x :: m => match l with a :: l => P i a x && go (S i) l m | [] => false end
    end.

Definition is_nil (x : value) : bool := match x with VNil => true | _ => false end.

Fixpoint copyableb (v : version) (k : key) (x : value) {struct x} : bool :=
  match mget k (v_types v) with
  | None => false
  | Some t =>
      match x with
      | VScalar _ | VNil => true
      | VObject o =>
          all_fieldsb (fun i a x => negb (N.testbit (o_bits o) (N.of_nat (reserved t + i))) || copyableb v (a_type a) x) 0 (t_attrs t) (o_fields o)
      | VSlice l =>
          match t_element t with Some e => forallb (fun y => negb (is_nil y) && copyableb v e y) l | None => false end
      | VList h b s =>
          String.eqb h "" && negb b &&
          match t_element t with
          | Some e => match s with VSlice l => forallb (fun y => negb (is_nil y) && copyableb v e y) l | _ => true end
          | None => false
          end
      | VMap l =>
          negb (Nat.eqb (length l) 0) &&
          match t_element t with Some e => forallb (fun p => negb (is_nil (snd p)) && copyableb v e (snd p)) l | None => false end
      end
  end.

Lemma all_fieldsb_sound f (P : nat -> attribute -> value -> value -> Prop) l m i :
  Forall (fun x => forall i a, f i a x = true -> P i a x x) m -> all_fieldsb f i l m = true -> all_fields P i l m m.
Proof.
  revert l i. induction m as [|x m IH]; intros l i F; cbn.
  - destruct l; [auto|discriminate].
  - destruct l as [|a l]; [discriminate|]. inversion F; subst. rewrite andb_true_iff. intros [H1' H2']. split; auto.
Qed.

Lemma is_nil_false x : is_nil x = false -> x <> VNil.
Proof. destruct x; discriminate. Qed.

Lemma copyableb_sound v : forall x k, copyableb v k x = true -> copyable v k x.
Proof.
  induction x as [s| |o IH|l IH|h b s IHs IHl|l IH] using value_ind2; intros k H.
  all: cbn in *; destruct (mget k (v_types v)) as [t|]; [|discriminate]; auto.
  - eapply all_fieldsb_sound; [|exact H]. eapply Forall_impl; [|exact IH]. cbn. intros x Hx i a E P.
    unfold present, marked in P. rewrite P in E. auto.
  - destruct (t_element t) as [e|]; [|discriminate]. exists e. split; auto. eapply all1b_sound; [|exact H].
    eapply Forall_impl; [|exact IH]. cbn. intros x Hx E. rewrite andb_true_iff, negb_true_iff in E. split; [apply is_nil_false|]; tauto || (apply Hx; tauto).
  - rewrite !andb_true_iff, negb_true_iff in H. destruct H as [[H1 H2] H]. apply String.eqb_eq in H1. split; auto. split; auto.
    destruct (t_element t) as [e|]; [|discriminate]. exists e. split; auto. destruct s; auto. eapply all1b_sound; [|exact H].
    eapply Forall_impl; [|exact (IHl _ eq_refl)]. cbn. intros x Hx E. rewrite andb_true_iff, negb_true_iff in E. split; [apply is_nil_false|]; tauto || (apply Hx; tauto).
  - rewrite andb_true_iff, negb_true_iff, Nat.eqb_neq in H. destruct H as [H1 H]. split; [destruct l; [cbn in H1; congruence|discriminate]|].
    destruct (t_element t) as [e|]; [|discriminate]. exists e. split; auto. eapply all1b_sound; [|exact H].
    eapply Forall_impl; [|exact IH]. cbn. intros x Hx E. rewrite andb_true_iff, negb_true_iff in E. split; [apply is_nil_false|]; tauto || (apply Hx; tauto).
Qed.

Lemma copyable_object v k t o : mget k (v_types v) = Some t -> copyable v k (VObject o) -> object_copyable v t o.
Proof. intros G H. cbn in H. rewrite G in H. exact H. Qed.

Lemma ex_thing_type : mget "thing" (v_types ex_v) = Some ex_t.
Proof. vm_compute. reflexivity. Qed.
Lemma ex_node_type : mget "node" (v_types ex_v) = Some ex_n.
Proof. vm_compute. reflexivity. Qed.

Lemma ex_object_copyable : object_copyable ex_v ex_t ex_object.
Proof.
  apply (copyable_object ex_v "thing" ex_t ex_object ex_thing_type). apply copyableb_sound. vm_compute. reflexivity.
Qed.
