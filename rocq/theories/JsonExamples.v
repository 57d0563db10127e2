(** Documents used in the examples. *)
From Coq Require Import Ascii String Bool Arith ZArith NArith Lia Permutation List.
From Verif Require Import GoStrings GoMap GoMapProofs NamesModel NamesSpec ConceptsModel BindingModel GoNamesModel GoTimeModel GoTimeSpec
  GoTimeProofs ReporterModel ObjectsModel ObjectsSpec ObjectsProofs2 ObjectsExamples JsonModel JsonSpec JsonProofs JsonProofs3 JsonProofs4
  JsonProofs5 JsonProofs6 JsonProofs7 JsonProofs8.
Import ListNotations.
Local Open Scope string_scope.

(** An oracle where the numbers of type [float64] are integers. *)
Definition ex_format (z : Z) : option string := if Z.leb int64_min z && Z.leb z int64_max then Some (itoa_z z) else None.
Definition ex_oracle : oracle := MkOracle ex_format parse_int (fun l => l).
Definition ex_backwards : oracle := MkOracle ex_format parse_int (@rev string).

Lemma ex_format_faithful z s : ex_format z = Some s -> json_number s /\ parse_int s = Some z.
Proof.
  unfold ex_format. destruct (Z.leb int64_min z && Z.leb z int64_max) eqn:E; [|discriminate]. intros H. injection H as <-.
  apply andb_true_iff in E. rewrite !Z.leb_le in E. split; [apply integer_number|]. now apply parse_itoa.
Qed.

Lemma ex_faithful : faithful ex_oracle.
Proof. split; [exact ex_format_faithful|]. intros l. apply Permutation_refl. Qed.
Lemma ex_backwards_faithful : faithful ex_backwards.
Proof. split; [exact ex_format_faithful|]. intros l. apply Permutation_rev. Qed.

(** Decision procedures. *)
Fixpoint nodupb (l : list string) : bool :=
  match l with [] => true | s :: l => negb (existsb (String.eqb s) l) && nodupb l end.

Lemma existsb_in s l : existsb (String.eqb s) l = false -> ~ In s l.
Proof.
  intros H I. assert (existsb (String.eqb s) l = true); [|congruence]. apply existsb_exists. exists s. split; auto. apply String.eqb_refl.
Qed.

Lemma nodupb_sound l : nodupb l = true -> NoDup l.
Proof.
  induction l as [|s l IH]; cbn; [constructor|]. rewrite andb_true_iff, negb_true_iff. intros [H1 H2]. constructor; auto. now apply existsb_in.
Qed.

Definition taggedb (t : typ) : bool :=
  nodupb (map attribute_name (t_attrs t)) && negb (existsb (String.eqb "") (map attribute_name (t_attrs t))) &&
  (negb (kind_eqb (t_kind t) ClassType) ||
   forallb (fun a => negb (existsb (String.eqb (attribute_name a)) ["kind"; "id"; "href"])) (t_attrs t)).

Lemma taggedb_sound t : taggedb t = true -> tagged t.
Proof.
  unfold taggedb. rewrite !andb_true_iff, negb_true_iff. intros [[H1 H2] H3]. split; [now apply nodupb_sound|].
  split; [now apply existsb_in|]. intros K a I. rewrite K in H3. cbn [kind_eqb negb orb] in H3. rewrite forallb_forall in H3.
  specialize (H3 a I). rewrite negb_true_iff in H3. now apply existsb_in.
Qed.

Definition compilesb (v : version) : bool :=
  forallb (fun p => match t_kind (snd p) with
                    | ClassType | StructType => Nat.leb (slots (snd p)) 63 && taggedb (snd p)
                    | _ => true
                    end) (v_types v).

Lemma compilesb_sound v : compilesb v = true -> compiles v.
Proof.
  unfold compilesb. rewrite forallb_forall. intros H k t G S. specialize (H _ (mget_in _ _ _ G)). cbn [snd] in H.
  destruct S as [E|E]; rewrite E in H; rewrite andb_true_iff in H; destruct H as [H1 H2]; apply Nat.leb_le in H1;
    (split; [exact H1|now apply taggedb_sound]).
Qed.

Definition plain_dateb (d : date) : bool :=
  Z.leb 0 (d_year d) && Z.leb (d_year d) 9999 && (Z.leb 1 (d_month d) && Z.leb (d_month d) 12) &&
  (Z.leb 1 (d_day d) && Z.leb (d_day d) (days_in (d_year d) (d_month d))) &&
  (Z.leb 0 (d_hour d) && Z.ltb (d_hour d) 24) && (Z.leb 0 (d_minute d) && Z.ltb (d_minute d) 60) &&
  (Z.leb 0 (d_second d) && Z.ltb (d_second d) 60) && Z.eqb (d_nano d) 0 &&
  (Z.eqb (d_offset d) (d_offset d / 60 * 60) && (Z.ltb (-1440) (d_offset d / 60) && Z.ltb (d_offset d / 60) 1440)).

Lemma plain_dateb_sound d : plain_dateb d = true -> plain_date d.
Proof.
  unfold plain_dateb, plain_date. rewrite !andb_true_iff, !Z.leb_le, !Z.ltb_lt, !Z.eqb_eq. intros H.
  repeat (split; [lia|]). exists (d_offset d / 60)%Z. lia.
Qed.

Definition lossless_scalarb (s : scalar) : bool := match s with SDate d => plain_dateb d | _ => true end.

Lemma lossless_scalarb_sound s : lossless_scalarb s = true -> lossless_scalar s.
Proof. destruct s; cbn; auto. apply plain_dateb_sound. Qed.

Fixpoint losslessb (v : version) (k : key) (x : value) {struct x} : bool :=
  match mget k (v_types v) with
  | None => false
  | Some t =>
      match x with
      | VScalar s => lossless_scalarb s
      | VNil => true
      | VObject b =>
          all_fieldsb (fun i a x => negb (N.testbit (o_bits b) (N.of_nat (reserved t + i))) || negb (is_nil x) && losslessb v (a_type a) x)
            0 (t_attrs t) (o_fields b)
      | VSlice l => match t_element t with Some e => forallb (losslessb v e) l | None => false end
      | VList h b s =>
          String.eqb h "" && negb b &&
          match t_element t with
          | Some e => match s with VSlice l => forallb (losslessb v e) l | _ => true end
          | None => false
          end
      | VMap l =>
          match t_element t with Some e => forallb (fun p => negb (String.eqb (fst p) "") && losslessb v e (snd p)) l | None => false end
      end
  end.

Lemma losslessb_sound v : forall x k, losslessb v k x = true -> lossless v k x.
Proof.
  induction x as [s| |o IH|l IH|h b s IHs IHl|l IH] using value_ind2; intros k H.
  all: cbn in *; destruct (mget k (v_types v)) as [t|]; [|discriminate]; auto.
  - now apply lossless_scalarb_sound.
  - eapply all_fieldsb_sound; [|exact H]. eapply Forall_impl; [|exact IH]. cbn. intros x Hx i a E P.
    unfold present, marked in P. rewrite P in E. cbn [negb orb] in E. rewrite andb_true_iff, negb_true_iff in E.
    destruct E as [E1 E2]. split; [now apply is_nil_false|auto].
  - destruct (t_element t) as [e|]; [|discriminate]. exists e. split; auto. eapply all1b_sound; [|exact H].
    eapply Forall_impl; [|exact IH]. cbn. auto.
  - rewrite !andb_true_iff, negb_true_iff in H. destruct H as [[H1 H2] H]. apply String.eqb_eq in H1. split; auto. split; auto.
    destruct (t_element t) as [e|]; [|discriminate]. exists e. split; auto. destruct s; auto. eapply all1b_sound; [|exact H].
    eapply Forall_impl; [|exact (IHl _ eq_refl)]. cbn. auto.
  - destruct (t_element t) as [e|]; [|discriminate]. exists e. split; auto. eapply all1b_sound; [|exact H].
    eapply Forall_impl; [|exact IH]. cbn. intros x Hx E. rewrite andb_true_iff, negb_true_iff in E. destruct E as [E1 E2].
    split; [now apply String.eqb_neq|auto].
Qed.

Lemma lossless_object v k t b : mget k (v_types v) = Some t -> lossless v k (VObject b) -> object_lossless v t b.
Proof. intros G H. cbn in H. rewrite G in H. exact H. Qed.

Fixpoint cleanb (j : json) : bool :=
  match j with
  | JArr l => forallb cleanb l
  | JObj l => forallb (fun p => negb (String.eqb (fst p) "") && cleanb (snd p)) l
  | _ => true
  end.

Lemma cleanb_sound : forall j, cleanb j = true -> clean j.
Proof.
  induction j as [|b|s|s|l IH|l IH] using json_ind2; cbn; auto; intros H; (eapply all1b_sound; [|exact H]); (eapply Forall_impl; [|exact IH]); cbn; auto.
  intros p Hp E. rewrite andb_true_iff, negb_true_iff in E. destruct E as [E1 E2]. split; [now apply String.eqb_neq|auto].
Qed.

(** The example version. *)
Lemma ex_compiles : compiles ex_v.
Proof. apply compilesb_sound. vm_compute. reflexivity. Qed.
Lemma ex_structural : structural ex_t.
Proof. left. vm_compute. reflexivity. Qed.
Lemma ex_fits : fits ex_t.
Proof. apply Nat.leb_le. vm_compute. reflexivity. Qed.
Lemma ex_tagged : tagged ex_t.
Proof. apply taggedb_sound. vm_compute. reflexivity. Qed.
Lemma ex_lossless : object_lossless ex_v ex_t ex_object.
Proof. apply (lossless_object ex_v "thing" ex_t ex_object ex_thing_type). apply losslessb_sound. vm_compute. reflexivity. Qed.

Definition tokens_of (w : written) : list token := match w with WOk l => l | _ => [] end.

Definition ex_tokens : list token := Eval vm_compute in tokens_of (marshal_object ex_oracle ex_v ex_t (Some ex_object)).
Lemma ex_written : marshal_object ex_oracle ex_v ex_t (Some ex_object) = WOk ex_tokens.
Proof. vm_compute. reflexivity. Qed.
Lemma ex_printable : object_printable ex_oracle ex_v ex_t ex_object.
Proof.
  apply (object_succeeds ex_oracle ex_v ex_standard ex_compiles ex_faithful ex_t ex_object ex_structural ex_fits ex_object_typed).
  exists ex_tokens. exact ex_written.
Qed.

(** The list type of the example. *)
Definition ex_l : typ := match mget "thing_list" (v_types ex_v) with Some t => t | None => ex_t end.
Definition ex_items : list value := [VObject ex_object; VObject ex_object].

Lemma ex_plain : plain ex_v ex_l.
Proof. apply plainb_sound. vm_compute. reflexivity. Qed.
Lemma ex_element : t_element ex_l = Some "thing".
Proof. vm_compute. reflexivity. Qed.
Lemma ex_items_typed : all1 (typed ex_v "thing" false) ex_items.
Proof. eapply all1b_sound; [|]; [apply Forall_forall; intros x _; exact (typedb_sound ex_v x "thing" false)|]. vm_compute. reflexivity. Qed.
Lemma ex_items_lossless : all1 (lossless ex_v "thing") ex_items.
Proof. eapply all1b_sound; [|]; [apply Forall_forall; intros x _; exact (losslessb_sound ex_v x "thing")|]. vm_compute. reflexivity. Qed.

Definition ex_items_tokens : list token := Eval vm_compute in tokens_of (marshal_list ex_oracle ex_v "thing" ex_items).
Lemma ex_items_written : marshal_list ex_oracle ex_v "thing" ex_items = WOk ex_items_tokens.
Proof. vm_compute. reflexivity. Qed.

(** Objects that change when they are written and read. *)
Definition built_with (l : list call) : object :=
  match build_object ex_v ex_t (apply_calls ex_v ex_t (new_builder ex_v ex_t) l) with Some b => b | None => new_builder ex_v ex_t end.

Definition reread (b : object) : object :=
  match unmarshal_object ex_oracle ex_v ex_t (tokens_of (marshal_object ex_oracle ex_v ex_t (Some b))) with
  | Ok r _ => r
  | _ => new_builder ex_v ex_t
  end.

Definition changesb {A} (f : value * bool -> A) (e : A -> A -> bool) (b : object) (i : nat) : bool :=
  object_typedb ex_v ex_t b && N.testbit (o_bits b) (N.of_nat (reserved ex_t + i)) && Nat.ltb i (length (t_attrs ex_t)) &&
  match marshal_object ex_oracle ex_v ex_t (Some b) with
  | WOk l =>
      match unmarshal_object ex_oracle ex_v ex_t l with
      | Ok r [] => negb (e (f (get_attr ex_v ex_t i (attr_at ex_t i) (Some r))) (f (get_attr ex_v ex_t i (attr_at ex_t i) (Some b))))
      | _ => false
      end
  | _ => false
  end.

Lemma changesb_sound {A} (f : value * bool -> A) e b i : (forall x, e x x = true) -> changesb f e b i = true -> changes ex_oracle ex_v ex_t b i.
Proof.
  intros R. unfold changesb. rewrite !andb_true_iff, Nat.ltb_lt. intros [[[H1 H2] H3] H4].
  split; [exact ex_faithful|]. split; [exact ex_standard|]. split; [exact ex_compiles|]. split; [exact ex_structural|].
  split; [exact ex_fits|]. split; [exact ex_tagged|]. split; [now apply object_typedb_sound|]. split; [exact H2|].
  destruct (marshal_object ex_oracle ex_v ex_t (Some b)) as [l| |]; try discriminate.
  destruct (unmarshal_object ex_oracle ex_v ex_t l) as [r [|]| |] eqn:U; try discriminate.
  exists (attr_at ex_t i), l, r. split; [now apply nth_error_nth'|]. split; [reflexivity|]. split; [exact U|].
  intros E. rewrite E, R in H4. discriminate.
Qed.

Definition text_of (x : value * bool) : string :=
  match fst x with
  | VList h _ _ => h
  | VScalar (SDate d) => itoa_z (d_nano d)
  | VNil => "nil"
  | _ => ""
  end.

(** The link of the list of children, the nanoseconds of a date and the presence of an empty list. *)
Definition ex_dated : object := built_with [CallSet 13 (VScalar (SDate (MkDate 2024 2 29 10 20 30 5 0)))].
Definition ex_absent : object := built_with [CallSet 1 VNil].
Definition ex_linked : object :=
  MkObject (o_bits (built_with [CallSet 1 VNil])) "" ""
    (firstn 1 (o_fields (new_builder ex_v ex_t)) ++ VList "/children" true VNil :: skipn 2 (o_fields (new_builder ex_v ex_t)))%list.
Definition ex_keyed : object := built_with [CallSet 4 (VMap [("", VScalar (SString "v"))])].

Lemma ex_dated_changes : changes ex_oracle ex_v ex_t ex_dated 13.
Proof. apply (changesb_sound text_of String.eqb); [apply String.eqb_refl|]. vm_compute. reflexivity. Qed.
Lemma ex_linked_changes : changes ex_oracle ex_v ex_t ex_linked 1.
Proof. apply (changesb_sound text_of String.eqb); [apply String.eqb_refl|]. vm_compute. reflexivity. Qed.
Lemma ex_absent_changes : changes ex_oracle ex_v ex_t ex_absent 1.
Proof. apply (changesb_sound snd Bool.eqb); [apply Bool.eqb_reflx|]. vm_compute. reflexivity. Qed.
Lemma ex_keyed_typed : object_typed ex_v ex_t ex_keyed.
Proof. apply object_typedb_sound. vm_compute. reflexivity. Qed.
Definition ex_keyed_tokens : list token := Eval vm_compute in tokens_of (marshal_object ex_oracle ex_v ex_t (Some ex_keyed)).
Lemma ex_keyed_written : marshal_object ex_oracle ex_v ex_t (Some ex_keyed) = WOk ex_keyed_tokens.
Proof. vm_compute. reflexivity. Qed.
Lemma ex_keyed_fails : unmarshal_object ex_oracle ex_v ex_t ex_keyed_tokens = Failed.
Proof. vm_compute. reflexivity. Qed.

(** An object with an attribute of type [interface{}] that contains a map. *)
Definition ex_mixed : object := built_with [CallSet 0 (VScalar (SAny (AMap [("a", ANil); ("b", ANil)])))].
Lemma ex_mixed_typed : object_typed ex_v ex_t ex_mixed.
Proof. apply object_typedb_sound. vm_compute. reflexivity. Qed.

(** A document. *)
Definition ex_members : list (string * json) :=
  [("id", JStr "1"); ("name", JStr "x"); ("size", JObj [("a", JNum "1")]); ("count", JNum "5"); ("name", JStr "y");
   ("labels", JObj [("k", JStr "v")]); ("kind", JStr "ThingLink")].
Lemma ex_members_clean : clean (JObj ex_members).
Proof. apply cleanb_sound. vm_compute. reflexivity. Qed.
