(** Proofs about the code that reads and writes JSON documents: the values. *)
From Coq Require Import Ascii String Bool Arith ZArith Lia List.
From Verif Require Import GoStrings GoStringsProofs GoMap GoMapProofs NamesModel NamesSpec ConceptsModel ReporterModel ChecksModel BindingModel GoNamesModel BufferModel ObjectsModel DeclsModel OpenapiProofs5
  GoTypesModel JsonCodeModel JsonModel JsonSpec ObjectsSpec GoTypesSpec JsonCodeSpec GoTypesProofs GoTypesProofs2 GoTypesProofs3 GoTypesProofs4 GoTypesProofs5.
Import ListNotations.
Local Open Scope string_scope.

(** * Variables *)

Lemma mget_app {A} x (l l' : list (string * A)) : mget x (l ++ l') = match mget x l with Some g => Some g | None => mget x l' end.
Proof. induction l as [|(y & g) l IH]; [reflexivity|]. cbn. now destruct (String.eqb x y). Qed.
Lemma variable_inside c b x : variable (inside c b) x = variable c x.
Proof. unfold variable, inside. cbn [en_inner en_outer mget]. apply mget_app. Qed.
Lemma variable_declare l c x : variable (declare l c) x = match mget x l with Some g => Some g | None => variable c x end.
Proof. unfold variable, declare. cbn [en_inner en_outer]. rewrite mget_app. now destruct (mget x l). Qed.
Lemma inner_inside c b : en_inner (inside c b) = [].
Proof. reflexivity. Qed.
Lemma inner_declare l c : en_inner (declare l c) = (l ++ en_inner c)%list.
Proof. reflexivity. Qed.
Lemma uses_cons x s l : uses x (s :: l) = used_in x s || negb (declares x s) && uses x l.
Proof. reflexivity. Qed.
Lemma uses_app_left x l l' : uses x l = true -> uses x (l ++ l') = true.
Proof.
  induction l as [|s l IH]; [discriminate|]. change ((s :: l) ++ l')%list with (s :: (l ++ l'))%list. rewrite !uses_cons. intros H. apply orb_true_iff in H as [H|H]; [now rewrite H|].
  apply andb_true_iff in H as [H1 H2]. rewrite H1, (IH H2). apply orb_true_r.
Qed.
Lemma uses_app_right x l l' : Forall (fun s => declares x s = false) l -> uses x l' = true -> uses x (l ++ l') = true.
Proof.
  induction l as [|s l IH]; intros F U; [exact U|]. change ((s :: l) ++ l')%list with (s :: (l ++ l'))%list. rewrite uses_cons. inversion F; subst.
  rewrite H1, IH by auto. apply orb_true_r.
Qed.

Ltac vars := repeat (first [rewrite variable_inside | rewrite variable_declare; cbn [mget String.eqb Ascii.eqb Bool.eqb app]]).
Ltac listed := cbn [In library_methods library_functions library_types]; repeat (first [left; reflexivity | right]).

(** * The types that can be used *)

Inductive shape (v : version) (k : key) (t : typ) (link : bool) : gotype -> Prop :=
| sh_library m s : library_type k = Some m -> t_kind t = ScalarType -> In (k, GBasic s) basic_types ->
    In (gStream, "Write" ++ m, [GBasic s], []) library_methods -> In (gIterator, "Read" ++ m, [], [GBasic s]) library_methods -> shape v k t link (GBasic s)
| sh_date : library_type k = None -> is_builtin nDate k = true -> t_kind t = ScalarType -> k = "date" -> shape v k t link GTime
| sh_any : library_type k = None -> is_builtin nDate k = false -> t_kind t = InterfaceType -> shape v k t link GAny
| sh_enum : library_type k = None -> is_builtin nDate k = false -> t_kind t = EnumType -> identifier (object_name t) -> shape v k t link (GNamed (object_name t))
| sh_struct : library_type k = None -> is_builtin nDate k = false -> structural t -> identifier (object_name t) -> shape v k t link (GPtr (GNamed (object_name t)))
| sh_slice e te h : library_type k = None -> is_builtin nDate k = false -> t_kind t = ListType -> link = false -> plain v t -> t_element t = Some e -> mget e (v_types v) = Some te -> acceptable v e false ->
    In (t_kind te) [ScalarType; EnumType; InterfaceType; ClassType; StructType] -> represents v e false h -> shape v k t link (GSlice h)
| sh_list e te : library_type k = None -> is_builtin nDate k = false -> t_kind t = ListType -> link = true -> plain v t -> t_element t = Some e -> mget e (v_types v) = Some te ->
    structural te -> identifier (object_name te) -> shape v k t link (GPtr (GNamed (object_name te ++ "List")))
| sh_map e te h : library_type k = None -> is_builtin nDate k = false -> t_kind t = MapType -> plain v t -> t_element t = Some e -> mget e (v_types v) = Some te -> acceptable v e false ->
    In (t_kind te) [ScalarType; EnumType; InterfaceType; ClassType; StructType] -> represents v e false h -> shape v k t link (GMap h).

Section Shapes.
  Context (pkg : string) (v : version) (PKG : package_path pkg) (STD : standard v) (NAMED : named_well v).

  Lemma not_library k t : mget k (v_types v) = Some t -> ~ In (t_kind t) [ScalarType; InterfaceType] -> library_type k = None /\ is_builtin nDate k = false.
  Proof.
    intros G N. destruct (not_builtin v STD k t G N) as (B & _). unfold builtin_reference in B. unfold library_type.
    destruct (is_builtin nBoolean k); [discriminate|]. destruct (is_builtin nInteger k); [discriminate|]. destruct (is_builtin nLong k); [discriminate|].
    destruct (is_builtin nFloat k); [discriminate|]. destruct (is_builtin nString k); [discriminate|]. destruct (is_builtin nInterface k); [discriminate|].
    destruct (is_builtin nDate k); [discriminate|]. auto.
  Qed.

  Lemma flat_acceptable e te : mget e (v_types v) = Some te -> In (t_kind te) [ScalarType; EnumType; InterfaceType; ClassType; StructType] -> acceptable v e false.
  Proof.
    intros G K. exists te. split; [exact G|]. cbn in K. destruct (t_kind te); try (exfalso; intuition discriminate); split; try discriminate; (split; [cbn; intuition discriminate|intros; discriminate]).
  Qed.

  Lemma element_represented e te : mget e (v_types v) = Some te -> In (t_kind te) [ScalarType; EnumType; InterfaceType; ClassType; StructType] -> exists h, represents v e false h.
  Proof.
    intros G K. destruct (scalar_cases v e te (flat_acceptable e te G K) G) as [S|S].
    - destruct (scalar_reference pkg v PKG STD NAMED e te G S) as (r & g & R & _). eauto.
    - exists (GPtr (GNamed (object_name te))). apply r_struct; [exact G|]. unfold structural. cbn in K, S. destruct (t_kind te); auto; exfalso; intuition discriminate.
  Qed.

  Lemma shaped k t link : mget k (v_types v) = Some t -> acceptable v k link -> exists g, represents v k link g /\ shape v k t link g.
  Proof.
    intros G (t' & G' & NU & P & L). replace t' with t in * by congruence. clear t' G'. pose proof STD as (_ & _ & S3 & S4).
    destruct (t_kind t) eqn:K; [congruence|..].
    all: try (destruct (not_library k t G) as (B & D); [rewrite K; cbn; intuition discriminate|]).
    all: assert (T : In t (types v)) by now apply mget_types in G.
    - eexists. assert (S : structural t) by (first [left; exact K|right; exact K]). split; [exact (r_struct v k link t G S)|]. apply sh_struct; auto.
    - eexists. split; [exact (r_enum v k link t G K)|]. apply sh_enum; auto.
    - exists GAny. pose proof (S4 k t G K) as ->. split; [apply r_any|apply sh_any; auto].
    - assert (P' : plain v t) by (apply P; cbn; auto). pose proof P' as (e & te & E & GE & KE). destruct link.
      + destruct (L eq_refl eq_refl) as (e' & te' & E' & GE' & KE'). replace e' with e in * by congruence. replace te' with te in * by congruence.
        eexists. split; [now apply (r_list v k t e te)|]. eapply sh_list; eauto. apply NAMED; [|now right]. now apply mget_types in GE.
      + destruct (element_represented e te GE KE) as (h & R). exists (GSlice h). split; [now apply (r_slice v k t e)|]. eapply sh_slice; eauto. now apply (flat_acceptable e te).
    - assert (P' : plain v t) by (apply P; cbn; auto). pose proof P' as (e & te & E & GE & KE).
      destruct (element_represented e te GE KE) as (h & R). exists (GMap h). split; [now apply (r_map v k link t e)|]. eapply sh_map; eauto. now apply (flat_acceptable e te).
    - destruct (S3 k t G K) as (s & I). unfold scalar_zeros in I. cbn [In] in I.
      repeat (destruct I as [I|I]; [injection I as <- <-|]); [..|contradiction].
      1-5: eexists; split; [apply r_basic; cbn [In basic_types]; auto 10|eapply sh_library; [reflexivity|exact K|cbn [In basic_types]; auto 10|listed|listed]].
      eexists. split; [apply r_basic; cbn [In basic_types]; auto 10|apply sh_date; auto].
    - eexists. assert (S : structural t) by (first [left; exact K|right; exact K]). split; [exact (r_struct v k link t G S)|]. apply sh_struct; auto.
  Qed.
End Shapes.
