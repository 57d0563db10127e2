(** Proofs about the code that reads and writes JSON documents: all the functions. *)
From Coq Require Import Ascii String Bool Arith ZArith Lia Permutation List.
From Verif Require Import GoStrings GoStringsProofs GoMap GoMapProofs NamesModel NamesSpec NamesProofs ConceptsModel ReporterModel ChecksModel ChecksSpec BindingModel GoNamesModel BufferModel ObjectsModel ObjectsProofs DeclsModel OpenapiProofs5
  GoTypesModel JsonCodeModel JsonModel JsonSpec ObjectsSpec GoTypesSpec JsonCodeSpec GoTypesProofs GoTypesProofs2 GoTypesProofs3 GoTypesProofs4 GoTypesProofs5 JsonCodeProofs JsonCodeProofs2 JsonCodeProofs3 JsonCodeProofs4 JsonCodeProofs5.
Import ListNotations.
Local Open Scope string_scope.

Lemma called_same ws ws' n : called ws n -> called ws' n -> ws = ws'.
Proof. unfold called. intros -> C. revert ws' C. induction ws as [|a ws IH]; intros [|b ws'] C; try discriminate; [reflexivity|]. cbn [map] in C. injection C as -> C. f_equal. auto. Qed.

Section Methods.
  Context (pkg : string) (v : version) (PKG : package_path pkg) (STD : standard v) (NAMED : named_well v).
  Context (fs : list func) (FN : functions_of pkg v fs).
  Context (r : resource) (m : method) (RES : In r (resources v)) (MET : In m (r_methods r)) (READY : method_ready v m).
  Notation request_env := (request_env r m).
  Notation response_env := (response_env r m).
  Notation body_ok := (body_ok pkg v fs).

  Definition code_ok (code : outcome (list stm * list stm * list report)) : Prop :=
    exists q p, code = Done (q, p, []) /\ body_ok request_env q /\ body_ok response_env p.

  Lemma not_items p : ~ called ["list"] (m_name m) -> ~ called ["search"] (m_name m) -> is_items m p = false.
  Proof.
    intros L S. unfold is_items, is_list_method, is_search. apply (equals_not nList (m_name m) ["list"] eq_refl) in L. apply (equals_not nSearch (m_name m) ["search"] eq_refl) in S. now rewrite L, S.
  Qed.
  Lemma called_other ws ws' : called ws (m_name m) -> ws <> ws' -> ~ called ws' (m_name m).
  Proof. intros C N C'. apply N. eapply called_same; eauto. Qed.

  Lemma unique_named ws p q : known_method m -> In p (m_params m) -> In q (m_params m) -> called ws (p_name p) -> called ws (p_name q) -> p = q.
  Proof.
    intros KM I J C D. destruct READY as (_ & _ & N & _). apply (distinct_in (fun p => go_private (p_name p)) (m_params m)); auto. cbn. now rewrite (called_private ws (p_name p) C), (called_private ws (p_name q) D).
  Qed.
  Lemma find_named n ws p : n_words n = map (fun s => MkWord s false) ws -> known_method m -> In p (m_params m) -> called ws (p_name p) -> get_parameter n m = Some p.
  Proof.
    intros W KM I C. unfold get_parameter. destruct (find _ (m_params m)) as [q|] eqn:E.
    - apply find_some in E as (J & E). apply (equals_called n (p_name q) ws W) in E. f_equal. now apply (unique_named ws).
    - apply (find_none _ _ E) in I. apply (equals_not n (p_name p) ws W) in I. contradiction.
  Qed.
  Lemma last_named_at n ws p : n_words n = map (fun s => MkWord s false) ws -> known_method m -> In p (m_params m) -> called ws (p_name p) -> last_named n (m_params m) = Some p.
  Proof.
    intros W KM I C. unfold last_named. destruct (fold_left _ (m_params m) None) as [q|] eqn:E.
    - apply last_some in E as (J & E). apply (equals_called n (p_name q) ws W) in E. f_equal. now apply (unique_named ws).
    - pose proof (last_none _ _ E p I) as E'. apply (equals_not n (p_name p) ws W) in E'. contradiction.
  Qed.
  Lemma last_named_in n ws p : n_words n = map (fun s => MkWord s false) ws -> last_named n (m_params m) = Some p -> In p (m_params m) /\ called ws (p_name p).
  Proof. intros W E. apply last_some in E as (J & E). split; [exact J|]. now apply (equals_called n (p_name p) ws W). Qed.
  Lemma first_of ws p : known_method m -> In p (m_params m) -> called ws (p_name p) -> first_called ws (m_params m) p.
  Proof.
    intros KM I C. apply in_split in I as (l1 & l2 & E). exists l1, l2. split; [exact E|]. split; [exact C|]. apply Forall_forall. intros q J D.
    destruct READY as (_ & _ & N & _). specialize (N KM). rewrite E, map_app in N. cbn [map] in N. apply NoDup_remove_2 in N. apply N. apply in_or_app. left.
    apply in_map_iff. exists q. split; [|exact J]. now rewrite (called_private ws (p_name p) C), (called_private ws (p_name q) D).
  Qed.

  Lemma struct_coded p : struct_param v p -> exists t, mget (p_type p) (v_types v) = Some t /\ coded v t.
  Proof. intros (t & G & K). exists t. split; [exact G|]. left. cbn in K. unfold structural. intuition. Qed.
  Lemma list_coded p : In p (m_params m) -> list_param v p -> exists t, mget (p_type p) (v_types v) = Some t /\ coded v t /\ t_kind t = ListType.
  Proof.
    intros I (t & G & K). exists t. split; [exact G|]. assert (KL : t_kind t = ListType) by (cbn in K; intuition). split; [|exact KL]. right. split; [exact KL|].
    destruct (parameter_acceptable v m READY p I) as (t' & G' & _ & P & _). replace t' with t in * by congruence. apply P. rewrite KL. cbn. auto.
  Qed.
  Lemma in_request p : In p (m_params m) -> p_in p = true -> In p (request_params m).
  Proof. intros. now apply filter_In. Qed.
  Lemma in_response p : In p (m_params m) -> p_out p = true -> In p (response_params m).
  Proof. intros. now apply filter_In. Qed.

  Lemma body_field p : called ["body"] (p_name p) -> json_parameter_field p = "body".
  Proof. intros C. unfold json_parameter_field. rewrite (called_private _ _ C). reflexivity. Qed.
  Lemma items_field p : called ["items"] (p_name p) -> json_parameter_field p = "items".
  Proof. intros C. unfold json_parameter_field. rewrite (called_private _ _ C). reflexivity. Qed.

  (** The methods that have a body. *)
  Lemma add_ok p t : known_method m -> ~ called ["list"] (m_name m) -> ~ called ["search"] (m_name m) -> In p (m_params m) -> called ["body"] (p_name p) -> in_out p -> mget (p_type p) (v_types v) = Some t -> coded v t -> code_ok (add_code v m).
  Proof.
    intros KM NL NS I C (D1 & D2) G CT. unfold add_code, typed_parameter. rewrite (find_named nBody ["body"] p eq_refl KM I C). change (type_at (p_type p) v) with (mget (p_type p) (v_types v)). rewrite G.
    eexists _, _. split; [reflexivity|]. rewrite <- (body_field p C). pose proof (not_items p NL NS) as NI.
    split; [apply marshal_body|apply unmarshal_body]; auto using in_request, in_response.
  Qed.
  Lemma get_ok p t : known_method m -> ~ called ["list"] (m_name m) -> ~ called ["search"] (m_name m) -> In p (m_params m) -> called ["body"] (p_name p) -> only_out p -> mget (p_type p) (v_types v) = Some t -> coded v t -> code_ok (get_code v m).
  Proof.
    intros KM NL NS I C (D1 & D2) G CT. unfold get_code, typed_parameter. rewrite (find_named nBody ["body"] p eq_refl KM I C). change (type_at (p_type p) v) with (mget (p_type p) (v_types v)). rewrite G.
    eexists _, _. split; [reflexivity|]. rewrite <- (body_field p C). pose proof (not_items p NL NS) as NI. split; [apply nothing_ok|apply unmarshal_body; auto using in_response].
  Qed.

  Lemma post_ok : ~ called ["list"] (m_name m) -> ~ called ["search"] (m_name m) -> accepted_post v (m_params m) -> code_ok (post_code v m).
  Proof.
    intros NL NS (A1 & _ & A3). unfold post_code, last_parameter.
    assert (Q : exists q, match fold_left (fun found p => if p_in p then Some p else found) (m_params m) None with
                          | Some p => match type_at (p_type p) v with Some t => Some (marshal_field t (json_parameter_field p)) | None => None end
                          | None => Some nothing
                          end = Some q /\ body_ok request_env q).
    { destruct (fold_left (fun found p => if p_in p then Some p else found) (m_params m) None) as [p|] eqn:E; [|exists nothing; split; [reflexivity|apply nothing_ok]].
      apply (last_some p_in) in E as (I & E). rewrite Forall_forall in A1. destruct (struct_coded p (A1 p I E)) as (t & G & C). change (type_at (p_type p) v) with (mget (p_type p) (v_types v)). rewrite G.
      eexists. split; [reflexivity|]. apply marshal_body; auto using in_request. now apply not_items. }
    assert (P : exists q, match fold_left (fun found p => if p_out p then Some p else found) (m_params m) None with
                          | Some p => match type_at (p_type p) v with Some t => Some (unmarshal_field t (json_parameter_field p)) | None => None end
                          | None => Some nothing
                          end = Some q /\ body_ok response_env q).
    { destruct (fold_left (fun found p => if p_out p then Some p else found) (m_params m) None) as [p|] eqn:E; [|exists nothing; split; [reflexivity|apply nothing_ok]].
      apply (last_some p_out) in E as (I & E). destruct A3 as (l1 & b & l2 & EQ & (_ & SB) & N). assert (PB : p = b).
      { rewrite Forall_forall in N. rewrite EQ in I. apply in_app_or in I as [I|[I|I]]; [|auto|]; exfalso; specialize (N p); rewrite N in E; try discriminate; apply in_or_app; auto. }
      subst b. destruct (struct_coded p SB) as (t & G & C). change (type_at (p_type p) v) with (mget (p_type p) (v_types v)). rewrite G.
      eexists. split; [reflexivity|]. apply unmarshal_body; auto using in_response. now apply not_items. }
    destruct Q as (q & -> & Q). destruct P as (p & -> & P). exists q, p. auto.
  Qed.

  (** The methods that return pages. *)
  Lemma option_in {A} (o : option A) x : In x (option_list o) <-> o = Some x.
  Proof. destruct o; cbn; [split; [intros [<-|[]]; reflexivity|intros E; left; congruence]|split; [contradiction|discriminate]]. Qed.
  Lemma option_nodup {A} (o : option A) : NoDup (option_list o).
  Proof. destruct o; repeat constructor. intros []. Qed.
  Lemma nodup_both {A} (l l' : list A) : NoDup l -> NoDup l' -> (forall x, In x l -> ~ In x l') -> NoDup (l ++ l').
  Proof.
    induction l as [|a l IH]; intros N N' D; [exact N'|]. inversion N; subst. cbn [app]. constructor; [|apply IH; auto; intros x I; apply D; now right].
    intros I. apply in_app_or in I as [I|I]; [contradiction|]. exact (D a (or_introl eq_refl) I).
  Qed.

  Lemma page_ok special : called ["list"] (m_name m) \/ called ["search"] (m_name m) -> known_method m ->
    (forall p, In p (m_params m) -> is_special special p = true -> p_out p = true -> exists ws, In ws [["page"]; ["size"]; ["total"]; ["items"]] /\ called ws (p_name p)) ->
    (forall p ws, In ws [["page"]; ["size"]; ["total"]; ["items"]] -> called ws (p_name p) -> is_special special p = true) ->
    paging_ok (m_params m) -> (exists p, In p (m_params m) /\ list_param v p /\ only_out p /\ called ["items"] (p_name p)) ->
    exists l, read_page pkg v special m = Done (l, []) /\ body_ok response_env l.
  Proof.
    intros LS KM SP PS (PG1 & PG2 & PG3) (p & I & LP & (D1 & D2) & C).
    assert (ITEMS : forall q, is_items m q = true <-> called ["items"] (p_name q)).
    { intros q. unfold is_items, is_list_method, is_search. replace (name_equals (Some (m_name m)) (Some nList) || name_equals (Some (m_name m)) (Some nSearch)) with true.
      - cbn [andb]. now apply (equals_called nItems (p_name q) ["items"] eq_refl).
      - symmetry. apply orb_true_iff. destruct LS as [L|L]; [left; now apply (equals_called nList (m_name m) ["list"] eq_refl)|right; now apply (equals_called nSearch (m_name m) ["search"] eq_refl)]. }
    destruct (list_coded p I LP) as (t & G & CT & KL). pose proof (parameter_acceptable v m READY p I) as A.
    unfold read_page. rewrite (last_named_at nItems ["items"] p eq_refl KM I C). change (type_at (p_type p) v) with (mget (p_type p) (v_types v)). rewrite G.
    pose (l := (option_list (last_named nPage (m_params m)) ++ option_list (last_named nSize (m_params m)) ++ option_list (last_named nTotal (m_params m)) ++ filter p_out (filter (fun p => negb (is_special special p)) (m_params m)))%list).
    fold l.
    assert (IN : forall q, In q l <-> In q (filter (fun p => negb (is_items m p)) (response_params m))).
    { intros q. unfold l, response_params. rewrite !in_app_iff, !option_in, !filter_In, !negb_true_iff. split.
      - intros [E|[E|[E|((J & S) & O)]]].
        + apply (last_named_in nPage ["page"] q eq_refl) in E as (J & E). destruct (PG1 q (first_of ["page"] q KM J E)) as (_ & (_ & O) & _). split; [auto|]. apply not_true_iff_false. intros X. apply ITEMS in X. pose proof (called_same _ _ _ X E). discriminate.
        + apply (last_named_in nSize ["size"] q eq_refl) in E as (J & E). destruct (PG2 q (first_of ["size"] q KM J E)) as (_ & (_ & O) & _). split; [auto|]. apply not_true_iff_false. intros X. apply ITEMS in X. pose proof (called_same _ _ _ X E). discriminate.
        + apply (last_named_in nTotal ["total"] q eq_refl) in E as (J & E). destruct (PG3 q (first_of ["total"] q KM J E)) as (_ & (_ & O)). split; [auto|]. apply not_true_iff_false. intros X. apply ITEMS in X. pose proof (called_same _ _ _ X E). discriminate.
        + split; [auto|]. apply not_true_iff_false. intros X. apply ITEMS in X. rewrite (PS q ["items"]) in S; [discriminate|cbn; auto 10|exact X].
      - intros ((J & O) & NI). destruct (is_special special q) eqn:S; [|auto 10]. destruct (SP q J S O) as (ws & W & E).
        destruct W as [<-|[<-|[<-|[<-|[]]]]].
        + left. now apply (last_named_at nPage ["page"]).
        + right. left. now apply (last_named_at nSize ["size"]).
        + right. right. left. now apply (last_named_at nTotal ["total"]).
        + apply ITEMS in E. congruence. }
    assert (ND : NoDup (m_params m)).
    { destruct READY as (_ & _ & N & _). apply NoDup_map_inv in N; auto. }
    assert (NDL : NoDup l).
    { unfold l. repeat apply nodup_both; try apply option_nodup.
      - apply NoDup_filter, NoDup_filter, ND.
      - intros q E J. apply option_in in E. apply (last_named_in nTotal ["total"] q eq_refl) in E as (_ & E). apply filter_In in J as (J & _). apply filter_In in J as (_ & J). rewrite (PS q ["total"]) in J; [discriminate|cbn; auto 10|exact E].
      - intros q E J. apply option_in in E. apply (last_named_in nSize ["size"] q eq_refl) in E as (_ & E). apply in_app_or in J as [J|J].
        + apply option_in in J. apply (last_named_in nTotal ["total"] q eq_refl) in J as (_ & J). pose proof (called_same _ _ _ J E). discriminate.
        + apply filter_In in J as (J & _). apply filter_In in J as (_ & J). rewrite (PS q ["size"]) in J; [discriminate|cbn; auto 10|exact E].
      - intros q E J. apply option_in in E. apply (last_named_in nPage ["page"] q eq_refl) in E as (_ & E). apply in_app_or in J as [J|J]; [|apply in_app_or in J as [J|J]].
        + apply option_in in J. apply (last_named_in nSize ["size"] q eq_refl) in J as (_ & J). pose proof (called_same _ _ _ J E). discriminate.
        + apply option_in in J. apply (last_named_in nTotal ["total"] q eq_refl) in J as (_ & J). pose proof (called_same _ _ _ J E). discriminate.
        + apply filter_In in J as (J & _). apply filter_In in J as (_ & J). rewrite (PS q ["page"]) in J; [discriminate|cbn; auto 10|exact E]. }
    assert (PERM : Permutation l (filter (fun p => negb (is_items m p)) (response_params m))).
    { apply NoDup_Permutation; [exact NDL|apply NoDup_filter, NoDup_filter, ND|exact IN]. }
    destruct (read_parameters_ok pkg v PKG STD NAMED fs FN r m RES MET READY l) as (cs & -> & NC & CC).
    { intros q J. apply IN in J. apply filter_In in J as (J & NI). split; [exact J|]. now apply negb_true_iff. }
    destruct (shaped pkg v PKG STD NAMED _ t false G A) as (g & R & S).
    destruct (reads pkg v fs PKG STD NAMED FN [gError] false "items" (p_type p) t false g G A R items_taken ltac:(discriminate)) as (rd & -> & B).
    eexists. split; [reflexivity|]. apply read_response_ok.
    - rewrite map_app, NC. cbn [map fst]. destruct READY as (_ & _ & _ & N & _). specialize (N LS). inversion N as [|? ? N1 N2]; subst.
      apply (Permutation_NoDup (Permutation_sym (Permutation_app_comm _ _))). cbn [app]. constructor.
      + intros X. apply N1. eapply Permutation_in; [apply Permutation_map, PERM|exact X].
      + eapply Permutation_NoDup; [apply Permutation_sym, Permutation_map, PERM|exact N2].
    - intros x J. apply in_app_or in J as [J|[<-|[]]]; [now apply CC|]. intros c V1 V2 EI. cbn [snd].
      destruct (response_field_ok pkg v PKG STD NAMED r m RES MET READY p t g (in_response p I D2)) as (f & HF & _ & FT); [auto|exact G|exact R|]. rewrite (items_field p C) in HF.
      specialize (FT (proj2 (ITEMS p) C)). destruct (list_is t KL) as (_ & _ & IL & _). rewrite IL. cbn [andb].
      apply B; [exact V2|intros y _; now rewrite EI|destruct (scalar_element v t); reflexivity|].
      intros c' W O. assert (V3 : variable c' "response" = Some (GPtr (GNamed (exchange_name r m ++ "Response")))) by (rewrite O by (cbn; intuition discriminate); exact V1).
      apply bl_statement; [|apply bl_nil]. eapply st_assign; [split; [eapply y_field; [apply y_var, V3|exact HF]|exact Logic.I]|].
      destruct FT as [(SE & ->)|(SE & e & te & E & GE & KE & -> & ->)]; rewrite SE; [apply x_same, y_var, W|].
      assert (SN : struct_name v t = object_name te ++ "List") by (unfold struct_name; rewrite IL, (element_at v t e te E GE); reflexivity). rewrite SN.
      apply x_same, y_new_items; [now apply mget_types in GE|exact KE|apply x_same, y_var, W].
  Qed.

  Lemma special_named special p : is_special special p = true <-> exists n, In n special /\ n_words (p_name p) = n_words n.
  Proof. unfold is_special. rewrite existsb_exists. split; intros (n & I & E); exists n; (split; [exact I|]); now apply name_equals_words. Qed.

  Lemma list_ok : called ["list"] (m_name m) -> accepted_list v (m_params m) -> code_ok (list_method_code pkg v m).
  Proof.
    intros C ((l1 & b & l2 & EQ & (LP & OO & CI) & _) & PG). unfold list_method_code.
    destruct (page_ok [nPage; nSize; nTotal; nItems]) as (l & E & B).
    - now left.
    - exists ["list"]. split; [cbn; auto 10|exact C].
    - intros p _ S _. apply special_named in S as (n & I & E). destruct I as [<-|[<-|[<-|[<-|[]]]]]; [exists ["page"]|exists ["size"]|exists ["total"]|exists ["items"]]; (split; [cbn; auto 10|exact E]).
    - intros p ws I E. apply special_named. destruct I as [<-|[<-|[<-|[<-|[]]]]]; [exists nPage|exists nSize|exists nTotal|exists nItems]; (split; [cbn [In]; auto 10|exact E]).
    - exact PG.
    - exists b. split; [rewrite EQ; apply in_or_app; right; now left|auto].
    - rewrite E. exists nothing, l. split; [reflexivity|]. split; [apply nothing_ok|exact B].
  Qed.

  Lemma search_ok : called ["search"] (m_name m) -> accepted_search v (m_params m) -> code_ok (search_code pkg v m).
  Proof.
    intros C ((items & body & others & PERM & LP & OO & CI & SB & (O1 & O2) & CB & _) & PG). unfold search_code.
    assert (KM : known_method m) by (exists ["search"]; split; [cbn; auto 10|exact C]).
    assert (I1 : In items (m_params m)) by (eapply Permutation_in; [apply Permutation_sym, PERM|now left]).
    assert (I2 : In body (m_params m)) by (eapply Permutation_in; [apply Permutation_sym, PERM|right; now left]).
    destruct (struct_coded body SB) as (t & G & CT).
    rewrite (last_named_at nBody ["body"] body eq_refl KM I2 CB). change (type_at (p_type body) v) with (mget (p_type body) (v_types v)). rewrite G.
    destruct (page_ok [nPage; nSize; nTotal; nBody; nItems]) as (l & E & B).
    - now right.
    - exact KM.
    - intros p J S O. apply special_named in S as (n & I & E). destruct I as [<-|[<-|[<-|[<-|[<-|[]]]]]]; [exists ["page"]|exists ["size"]|exists ["total"]| |exists ["items"]]; try (split; [cbn; auto 10|exact E]).
      exfalso. rewrite (unique_named ["body"] p body KM J I2 E CB) in O. congruence.
    - intros p ws I E. apply special_named. destruct I as [<-|[<-|[<-|[<-|[]]]]]; [exists nPage|exists nSize|exists nTotal|exists nItems]; (split; [cbn [In]; auto 10|exact E]).
    - exact PG.
    - exists items. auto.
    - rewrite E. eexists _, l. split; [reflexivity|]. split; [|exact B]. apply marshal_body; auto using in_request.
      unfold is_items. assert (X : name_equals (Some (p_name body)) (Some nItems) = false) by (apply (equals_not nItems (p_name body) ["items"] eq_refl); intros X; pose proof (called_same _ _ _ X CB); discriminate).
      rewrite X. apply andb_false_r.
  Qed.

  Lemma action_ok : ~ known_method m -> code_ok (action_code pkg v m).
  Proof.
    intros NK. unfold action_code.
    assert (NI : forall p, is_items m p = false).
    { intros p. apply not_items; intros C; apply NK; eexists; (split; [|exact C]); cbn; auto 10. }
    pose (c1 := declare [("count", gInt)] request_env). pose (c2 := declare [("stream", gStream)] c1).
    destruct (write_parameters_ok pkg v PKG STD NAMED fs FN r m RES MET READY c2 (request_body_params v m)) as (w & -> & FS & U & D).
    { intros p I. split; [|apply NI]. unfold request_body_params in I. destruct (is_action m); [exact I|]. apply filter_In in I as (I & E). apply andb_true_iff in E as (E & _). now apply in_request. }
    1-3: reflexivity.
    destruct (read_parameters_ok pkg v PKG STD NAMED fs FN r m RES MET READY (response_body_params m)) as (cs & -> & NC & CC); [auto|].
    eexists _, _. split; [reflexivity|]. split.
    - destruct (request_body_params v m) as [|p l]; [apply nothing_ok|]. split; [|eexists (_ :: _ :: _ :: (w ++ [_; _; _])%list), _; cbn [app]; rewrite <- app_assoc; reflexivity].
      cbn [app]. apply define_one with (g := gInt); [apply y_zero|reflexivity| |].
      + rewrite !uses_cons. cbn [declares write existsb String.eqb Ascii.eqb Bool.eqb orb negb andb]. rewrite (uses_app_left "count" w) by (apply U; discriminate). now rewrite !orb_true_r.
      + apply define_one with (g := gStream); [eapply y_call; [apply c_library; listed|]; apply accepts_one, y_var; reflexivity|reflexivity|reflexivity|]. fold c1. fold c2.
        apply bl_statement; [apply write_ok with (ps := []); [reflexivity|listed|constructor]|]. apply block_app; [exact FS|].
        apply bl_statement; [apply write_ok with (ps := []); [reflexivity|listed|constructor]|].
        apply define_one with (g := gError); [eapply method_ok; [reflexivity|listed|constructor]|reflexivity|reflexivity|].
        apply bl_statement.
        * apply st_if; [eapply y_not_nil; [apply y_var; reflexivity|now right]|apply bl_statement; [|apply bl_nil]|apply bl_nil]. apply st_return, accepts_one, y_var. reflexivity.
        * apply bl_statement; [|apply bl_nil]. apply st_return, accepts_one. eapply y_field; [apply y_var; reflexivity|apply f_stream].
    - destruct (response_body_params m) as [|p l] eqn:E; [apply nothing_ok|]. apply read_response_ok; [|exact CC]. rewrite NC, <- E. destruct READY as (_ & _ & _ & _ & N). exact (N NK).
  Qed.

  Lemma known_is ws : In ws known_methods -> called ws (m_name m) -> known_method m.
  Proof. intros I C. exists ws. auto. Qed.

  Lemma code_compiles code : code_ok code -> exists l, match code with Done (q, p, l) => Done ([request_func r m q; response_func r m p], l) | _ => Panics end = Done (l, []) /\ Forall (function_compiles pkg v fs) l.
  Proof.
    intros (q & p & -> & (Q1 & Q2) & (P1 & P2)). eexists. split; [reflexivity|]. constructor; [now apply request_func_ok|]. constructor; [now apply response_func_ok|constructor].
  Qed.

  Lemma method_code_ok : exists l, method_code pkg v r m = Done (l, []) /\ Forall (function_compiles pkg v fs) l.
  Proof.
    unfold method_code. cbv zeta. apply code_compiles. pose proof READY as ((_ & A1 & A2 & A3 & A4 & A5 & A6 & A7) & _).
    assert (X : forall n ws, n_words n = map (fun s => MkWord s false) ws -> name_equals (Some (m_name m)) (Some n) = true -> called ws (m_name m)) by (intros n ws W E; now apply (equals_called n (m_name m) ws W)).
    assert (Y : forall n ws, n_words n = map (fun s => MkWord s false) ws -> name_equals (Some (m_name m)) (Some n) = false -> ~ called ws (m_name m)) by (intros n ws W E; now apply (equals_not n (m_name m) ws W)).
    unfold is_add, is_delete, is_async_delete, is_get, is_list_method, is_post, is_search, is_update, is_async_update.
    destruct (name_equals (Some (m_name m)) (Some nAdd)) eqn:E1.
    { apply (X nAdd ["add"] eq_refl) in E1. destruct (A1 E1) as (l1 & b & l2 & EQ & (SP & IO & CB) & _). destruct (struct_coded b SP) as (t & G & C).
      apply (add_ok b t); auto; [apply (known_is ["add"]); cbn; auto 10|apply (called_other ["add"]); auto; discriminate|apply (called_other ["add"]); auto; discriminate|].
      rewrite EQ. apply in_or_app. right. now left. }
    destruct (name_equals (Some (m_name m)) (Some nDelete)) eqn:E2.
    { exists nothing, nothing. split; [reflexivity|]. split; apply nothing_ok. }
    destruct (name_equals (Some (m_name m)) (Some nAsyncDelete)) eqn:E3.
    { exists nothing, nothing. split; [reflexivity|]. split; apply nothing_ok. }
    destruct (name_equals (Some (m_name m)) (Some nGet)) eqn:E4.
    { apply (X nGet ["get"] eq_refl) in E4. destruct (A3 E4) as (l1 & b & l2 & EQ & (SP & IO & CB) & _). destruct (struct_coded b SP) as (t & G & C).
      apply (get_ok b t); auto; [apply (known_is ["get"]); cbn; auto 10|apply (called_other ["get"]); auto; discriminate|apply (called_other ["get"]); auto; discriminate|].
      rewrite EQ. apply in_or_app. right. now left. }
    destruct (name_equals (Some (m_name m)) (Some nList)) eqn:E5; [apply (X nList ["list"] eq_refl) in E5; now apply list_ok; auto|].
    destruct (name_equals (Some (m_name m)) (Some nPost)) eqn:E6.
    { apply (X nPost ["post"] eq_refl) in E6. apply post_ok; auto; apply (called_other ["post"]); auto; discriminate. }
    destruct (name_equals (Some (m_name m)) (Some nSearch)) eqn:E7; [apply (X nSearch ["search"] eq_refl) in E7; now apply search_ok; auto|].
    destruct (name_equals (Some (m_name m)) (Some nUpdate) || name_equals (Some (m_name m)) (Some nAsyncUpdate)) eqn:E8.
    { assert (E : called ["update"] (m_name m) \/ called ["async"; "update"] (m_name m)) by (apply orb_true_iff in E8 as [E|E]; [left; exact (X nUpdate ["update"] eq_refl E)|right; exact (X nAsyncUpdate ["async"; "update"] eq_refl E)]).
      destruct (A7 E) as (l1 & b & l2 & EQ & (SP & IO & CB) & _). assert (I : In b (m_params m)) by (rewrite EQ; apply in_or_app; right; now left).
      assert (KM : known_method m) by (destruct E as [E|E]; eexists; (split; [|exact E]); cbn; auto 10).
      assert (CT : exists t, mget (p_type b) (v_types v) = Some t /\ coded v t).
      { destruct SP as [SP|SP]; [now apply struct_coded|]. destruct (list_coded b I SP) as (t & G & C & _). eauto. }
      destruct CT as (t & G & C). apply (add_ok b t); auto; [exact (Y nList ["list"] eq_refl E5)|exact (Y nSearch ["search"] eq_refl E7)]. }
    cbn [orb]. apply action_ok. apply orb_false_iff in E8 as (E8 & E9). intros (ws & I & C).
    apply (Y nAdd ["add"] eq_refl) in E1. apply (Y nDelete ["delete"] eq_refl) in E2. apply (Y nAsyncDelete ["async"; "delete"] eq_refl) in E3. apply (Y nGet ["get"] eq_refl) in E4. apply (Y nList ["list"] eq_refl) in E5.
    apply (Y nPost ["post"] eq_refl) in E6. apply (Y nSearch ["search"] eq_refl) in E7. apply (Y nUpdate ["update"] eq_refl) in E8. apply (Y nAsyncUpdate ["async"; "update"] eq_refl) in E9.
    cbn [known_methods In] in I. repeat (destruct I as [<-|I]; [contradiction|]). contradiction.
  Qed.
End Methods.

(** * All the functions *)

Lemma collect_ok {A} (f : A -> outcome (list func * list report)) (P : func -> Prop) l : (forall a, In a l -> exists x, f a = Done (x, []) /\ Forall P x) ->
  exists x, collect f l = Done (x, []) /\ Forall P x /\ forall a y, In a l -> f a = Done (y, []) -> forall fn, In fn y -> In fn x.
Proof.
  induction l as [|a l IH]; intros H; [exists []; repeat split; auto; contradiction|]. destruct (H a (or_introl eq_refl)) as (x & E & F). destruct (IH (fun b I => H b (or_intror I))) as (y & E' & F' & X).
  exists (x ++ y)%list. cbn [collect]. rewrite E, E'. split; [reflexivity|]. split; [now apply Forall_app|]. intros b z [<-|I] EZ fn J; apply in_or_app; [left|right; eauto].
  now replace x with z by congruence.
Qed.

Section All.
  Context (pkg : string) (v : version) (PKG : package_path pkg) (STD : standard v) (NAMED : named_well v) (READY : json_ready v).

  Lemma type_at_ok fs k t : functions_of pkg v fs -> In (k, t) (v_types v) ->
    exists l, type_code pkg v k t = Done (l, []) /\ Forall (function_compiles pkg v fs) l /\ (coded v t -> map signature_of l = signatures pkg v k t).
  Proof.
    intros FN I. destruct READY as (ND & R1 & R2 & _). assert (G : mget k (v_types v) = Some t) by now apply mget_in_iff. assert (T : In t (types v)) by now apply mget_types in G.
    apply type_code_ok; auto.
  Qed.

  Lemma all_ok fs : functions_of pkg v fs -> exists l, json_code pkg v = Done (l, []) /\ Forall (function_compiles pkg v fs) l /\ functions_of pkg v l.
  Proof.
    intros FN. unfold json_code.
    destruct (collect_ok (fun kt => type_code pkg v (fst kt) (snd kt)) (function_compiles pkg v fs) (v_types v)) as (x & -> & FX & IX).
    { intros (k & t) I. destruct (type_at_ok fs k t FN I) as (l & E & F & _). exists l. auto. }
    destruct (collect_ok (fun r => collect (method_code pkg v r) (r_methods r)) (function_compiles pkg v fs) (resources v)) as (y & -> & FY & _).
    { intros r I. destruct (collect_ok (method_code pkg v r) (function_compiles pkg v fs) (r_methods r)) as (z & E & F & _); [|exists z; auto].
      intros m J. apply method_code_ok; auto. destruct READY as (_ & _ & _ & R3). now apply (R3 r). }
    exists (x ++ y)%list. split; [reflexivity|]. split; [now apply Forall_app|]. apply functions_from; auto. intros k t s G C I.
    assert (IT : In (k, t) (v_types v)) by now apply mget_in. destruct (type_at_ok fs k t FN IT) as (l & E & _ & S). rewrite <- (S C) in I. apply in_map_iff in I as (fn & <- & I).
    apply in_map, in_or_app. left. exact (IX (k, t) l IT E fn I).
  Qed.

  Lemma json_code_compiles : exists fs, json_code pkg v = Done (fs, []) /\ Forall (function_compiles pkg v fs) fs.
  Proof.
    destruct (all_ok (sample pkg v) (sample_functions pkg v PKG STD NAMED)) as (l & E & _ & FN). destruct (all_ok l FN) as (l' & E' & F & _). exists l. split; [exact E|]. now replace l' with l in F by congruence.
  Qed.
End All.

(** * Structs without attributes *)

Lemma empty_struct_wrong pkg v k t fs : t_kind t = StructType -> t_attrs t = [] ->
  exists l fn, type_code pkg v k t = Done (l, []) /\ In fn l /\ ~ function_compiles pkg v fs fn.
Proof.
  intros K A. unfold type_code, struct_code, write_code, read_code, is_struct. rewrite K, A. cbn [kind_eqb orb write_attributes read_attributes].
  eexists _, _. split; [reflexivity|]. split; [right; left; reflexivity|]. unfold write_class, is_class. rewrite K. cbn [kind_eqb app].

  intros (ps & rs & _ & _ & _ & B & _). cbn [fn_body] in B. inversion B as [|s l S|xs e gs l Y N1 N2 E U R|]; subst; [inversion S|].
  destruct gs as [|g [|]]; try discriminate. specialize (U "count" g (or_introl eq_refl)). destruct U as [(_ & U)|U]; [discriminate U|].
  cbn [en_inner] in U. destruct E as (x & [<-|[]] & E). cbn [en_inner] in E. congruence.
Qed.
