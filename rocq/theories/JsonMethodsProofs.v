(** Proofs about the execution of the functions that write the bodies of the requests. *)
From Coq Require Import Ascii String Bool Arith ZArith NArith Lia Permutation List.
From Verif Require Import GoStrings GoMap GoMapProofs NamesModel NamesProofs ConceptsModel ReporterModel BindingModel GoNamesModel GoTimeModel DeclsModel DeclsSpec DeclsProofs ChecksModel ChecksSpec GoTypesModel
  ObjectsModel ObjectsSpec ObjectsProofs ObjectsProofs2 JsonModel JsonSpec JsonProofs3 ClientsModel JsonCodeModel JsonCodeSpec JsonCodeProofs4 JsonCodeProofs5 JsonCodeProofs6
  JsonRunSpec JsonMethodsSpec JsonRunProofs JsonRunProofs2 JsonRunProofs3 JsonRunProofs4 JsonRunProofs5 JsonRunProofs6.
From Verif Require RequestModel RequestSpec.
Import ListNotations.
Local Open Scope string_scope.

Section Version.
  Context (o : oracle) (pkg : string) (v : version) (fs : list func) (reports : list report) (structures : string -> option (list (string * gv))) (limit : nat).
  Context (FAITH : faithful o) (STD : standard v).
  Context (CODE : json_code pkg v = Done (fs, reports)) (ONCE : declared_once v fs).
  Context (FULL : forall t, In t (types v) -> t_kind t = StructType -> t_attrs t <> []).
  Notation constants := (kind_constants v).
  Notation C := (call_function o constants structures fs limit).
  Notation eval n := (eval o constants structures limit (C n)).
  Notation exec n := (exec o constants structures limit (C n)).
  Notation blk n := (block o constants structures limit (C n)).
  Notation emits n := (emits o constants structures limit (C n)).
  Notation called := (called o v fs structures limit).
  Notation prepared := (prepared o v fs structures limit).
  Notation stable := (stable o v fs structures limit).
  Let ORD := proj2 FAITH.

  (** * Parameters *)

  Section Parameters.
    Context (n : nat) (l : list (string * gv)) (fields : list (string * value)).
    Definition holder (c : Z) : frames := [[("request", RStruct l); ("writer", RWriter); ("count", RInt c); ("stream", RStream)]].
    Definition carried (p : parameter) : Prop :=
      mget (json_parameter_field p) l = Some (run_field v (p_type p) (value_of fields (json_parameter_field p))) /\
      (value_of fields (json_parameter_field p) = VNil \/
       typed v (p_type p) false (value_of fields (json_parameter_field p)) /\ prepared n (p_type p) (value_of fields (json_parameter_field p))).

    Lemma holder_more f c : mget "count" f = None -> mget "stream" f = None -> emits n (f :: holder (Z.of_nat c)) [write_more] (if Nat.ltb 0 c then WOk [TComma] else WOk []) (f :: holder (Z.of_nat c)).
    Proof.
      intros F1 F2. eapply (emits_if _ _ _ _ _ _ _ _ _ (Z.ltb 0 (Z.of_nat c)) _ []).
      - intros s. cbn [JsonRunSpec.eval lookup]. rewrite F1. reflexivity.
      - destruct c; [apply emits_nil|]. cbn [Z.ltb Z.of_nat Z.compare]. apply emits_write0; [cbn [lookup mget]; now rewrite F2|intros; reflexivity|discriminate].
    Qed.

    Lemma holder_value p t c code : carried p -> value_of fields (json_parameter_field p) <> VNil -> mget (p_type p) (v_types v) = Some t ->
      JsonCodeModel.write_value v (if is_scalar t && negb (is_interface t) then XDeref (request_field (json_parameter_field p)) else request_field (json_parameter_field p)) (p_type p) t false = Done code ->
      not_nil (run_field v (p_type p) (value_of fields (json_parameter_field p))) = true /\
      emits n ([] :: holder c) code (JsonModel.write_value o v (p_type p) false (value_of fields (json_parameter_field p))) ([] :: holder c).
    Proof.
      intros (M & [X|(T & P)]) N G Cd; [contradiction|]. set (x := value_of fields (json_parameter_field p)) in *.
      assert (Fr : forall fr s, (forall f y, In f fr -> In y ["object"; "request"; "value"; "stream"] -> mget y f = None) ->
        eval n (fr ++ [] :: holder c)%list s (request_field (json_parameter_field p)) = Gives (run_field v (p_type p) x) s).
      { intros fr s H. unfold request_field. cbn [JsonRunSpec.eval]. rewrite lookup_skip by (intros f If; apply H; [exact If|right; now left]).
        unfold holder. cbn [lookup mget String.eqb Ascii.eqb Bool.eqb]. now rewrite M. }
      assert (Kind : (exists sc, x = VScalar sc) /\ is_scalar t = true \/ is_scalar t = false /\ run_field v (p_type p) x = run_value v (p_type p) x /\ not_nil (run_value v (p_type p) x) = true).
      { unfold is_scalar, run_field. destruct x as [sc| |b|xs|h b i|xs]; [| contradiction N; reflexivity | | | |]; cbn [typed] in T; rewrite G in T |- *; cbn [run_value]; rewrite ?G;
          destruct (t_kind t); cbn [kind_eqb orb]; try contradiction; eauto; destruct (t_element t); try contradiction; destruct T as [_ T]; try contradiction; auto; try (destruct T; discriminate). }
      destruct Kind as [((sc & Ex) & Sc)|(Sc & Er & Nn)].
      - assert (Er : run_field v (p_type p) x = RPtr (run_value v (p_type p) x)).
        { rewrite Ex. cbn [run_field run_value]. rewrite G. unfold is_scalar in Sc. destruct (t_kind t); try discriminate; reflexivity. }
        split; [now rewrite Er|]. rewrite Sc in Cd. destruct (is_interface t) eqn:It; cbn [andb negb] in Cd.
        + (* WriteVal follows pointers. *)
          unfold JsonCodeModel.write_value, is_map in Cd. unfold is_interface in It. assert (Kt : t_kind t = InterfaceType) by (destruct (t_kind t); try discriminate; reflexivity).
          rewrite Kt in Cd. cbn [kind_eqb] in Cd. injection Cd as <-.
          rewrite Ex in T |- *. cbn [typed] in T. rewrite G, Kt in T. unfold scalar_typed in T. rewrite Kt in T. destruct sc as [| | | | |a]; try contradiction.
          destruct (not_library v STD (p_type p) t G) as (F0 & F1 & F2 & F3 & F4 & F5 & F6); [congruence|].
          unfold write_flat. rewrite F0, F1. unfold is_enum, is_interface. rewrite Kt. cbn [kind_eqb]. cbn [JsonModel.write_value]. rewrite F1, F2, F3, F4, F5, F6. unfold type_at. rewrite G.
          unfold is_enum, is_interface. rewrite Kt. cbn [kind_eqb].
          apply (emits_write1 _ _ _ _ _ _ "WriteVal" _ (RPtr (RAny a))); [reflexivity| |exact I|reflexivity|intros; reflexivity|apply any_no_panic, ORD].
          intros s. specialize (Fr [] s ltac:(contradiction)). cbn [app] in Fr. rewrite Fr, Er, Ex. reflexivity.
        + eapply (value_emits o v fs structures limit ORD STD n (p_type p) t false x _ (XDeref (request_field (json_parameter_field p))) code G T P); [reflexivity| |exact I|exact Cd].
          intros fr s H. specialize (Fr fr s H). cbn [JsonRunSpec.eval] in Fr |- *. rewrite Fr, Er. reflexivity.
      - split; [now rewrite Er|]. rewrite Sc in Cd. cbn [andb] in Cd.
        eapply (value_emits o v fs structures limit ORD STD n (p_type p) t false x _ (request_field (json_parameter_field p)) code G T P); [reflexivity| |exact I|exact Cd].
        intros fr s H. rewrite (Fr fr s H), Er. reflexivity.
    Qed.

    Lemma parameters_emit : forall ps c code, Forall carried ps -> JsonCodeModel.write_parameters v ps = Done code ->
      exists c', emits n (holder (Z.of_nat c)) code (RequestModel.write_parameters o v c ps fields) (holder c').
    Proof.
      induction ps as [|p ps IH]; intros c code F Cd.
      - injection Cd as <-. eexists. apply emits_nil.
      - cbn [JsonCodeModel.write_parameters] in Cd. destruct (write_parameter v p) as [x| |] eqn:Ep; try discriminate.
        destruct (JsonCodeModel.write_parameters v ps) as [code'| |] eqn:El; try discriminate. injection Cd as <-.
        unfold write_parameter, type_at in Ep. destruct (mget (p_type p) (v_types v)) as [t|] eqn:G; [|discriminate]. cbv zeta in Ep.
        match type of Ep with match ?W with _ => _ end = _ => destruct W as [w| |] eqn:Ew; try discriminate end. injection Ep as <-.
        inversion F as [|? ? Fp Fl]; subst. cbn [RequestModel.write_parameters].
        change (RequestModel.field_at fields (json_field p)) with (value_of fields (json_parameter_field p)).
        assert (Ev : forall s, eval n (holder (Z.of_nat c)) s (XNotNil (request_field (json_parameter_field p))) = Gives (RBool (not_nil (run_field v (p_type p) (value_of fields (json_parameter_field p))))) s).
        { intros s. unfold request_field, holder. cbn [JsonRunSpec.eval lookup mget String.eqb Ascii.eqb Bool.eqb]. now rewrite (proj1 Fp). }
        destruct (value_of fields (json_parameter_field p)) eqn:Ex.
        2: { destruct (IH c code' Fl eq_refl) as [c' E]. exists c'. cbn [app]. rewrite <- (wcat_nil_l (RequestModel.write_parameters _ _ _ _ _)).
             eapply emits_cons; [|exact E]. eapply (emits_if _ _ _ _ _ _ _ _ _ false _ []); [exact Ev|apply emits_nil]. }
        all: rewrite <- Ex in *; (assert (N : value_of fields (json_parameter_field p) <> VNil) by congruence);
          destruct (holder_value p t (Z.of_nat c) w Fp N G Ew) as (Nn & E); rewrite Nn in Ev;
          destruct (IH (c + 1)%nat code' Fl eq_refl) as [c' E']; exists c'; cbn [app];
          (match goal with |- emits n _ _ (wcat ?A (wcat ?B (wcat ?D ?R))) _ => replace (wcat A (wcat B (wcat D R))) with (wcat (wcat A (wcat B (wcat D (WOk [])))) R) by
            (rewrite wcat_nil_r; now rewrite !wcat_assoc) end);
          (eapply emits_cons; [|exact E']);
          (eapply (emits_if _ _ _ _ _ _ _ _ _ true _ []); [exact Ev|]);
          (eapply emits_cons; [apply holder_more; reflexivity|]);
          (eapply emits_cons; [apply (emits_write1 _ _ _ _ _ _ _ _ (RString (body_parameter_name p))); [reflexivity|intros; reflexivity|exact I|reflexivity|intros; reflexivity|discriminate]|]);
          (eapply emits_app; [exact E|]); apply emits_silent; intros st; unfold holder;
          cbn [JsonRunSpec.exec lookup mget String.eqb Ascii.eqb Bool.eqb store update mset continue]; now rewrite Nat2Z.inj_add.
    Qed.
  End Parameters.
End Version.
