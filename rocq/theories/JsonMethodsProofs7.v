(** Proofs about the errors that the generated functions return. *)
From Coq Require Import Ascii String Bool Arith ZArith NArith Lia List.
From Verif Require Import GoStrings GoMap ConceptsModel ReporterModel BindingModel GoNamesModel DeclsModel ChecksModel GoTypesModel ObjectsModel JsonModel JsonCodeModel JsonRunSpec JsonMethodsSpec.
Import ListNotations.
Local Open Scope string_scope.

Lemma collected {A : Type} (f : A -> outcome (list func * list report)) l : forall fs rs fn, collect f l = Done (fs, rs) -> In fn fs -> exists a x rs', In a l /\ f a = Done (x, rs') /\ In fn x.
Proof.
  induction l as [|b l IH]; intros fs rs fn H I; cbn [collect] in H; [injection H as <- <-; contradiction|].
  destruct (f b) as [[x rx]| |] eqn:Fb; try discriminate. destruct (collect f l) as [[y ry]| |] eqn:Cl; try discriminate. injection H as <- <-.
  apply in_app_or in I as [I|I]; [exists b, x, rx; split; [now left|auto]|]. destruct (IH y ry fn eq_refl I) as (a & z & rz & Ia & E & J). exists a, z, rz. split; [now right|auto].
Qed.

Section Version.
  Context (pkg : string) (v : version).

  Lemma unmarshal_errors x text t : returns_errors (unmarshal_code x text t).
  Proof. intros _. do 5 right. eexists [_]. split; [reflexivity|right; now left]. Qed.
  Lemma marshal_errors x text t : returns_errors (marshal_code x text t).
  Proof.
    intros _. do 3 right. left. eexists [_; _]. split; [reflexivity|now left].
  Qed.
  Lemma no_errors fn : (forall p, In p (fn_params fn) -> In (fst p) ["object"; "list"; "stream"; "iterator"]) -> returns_errors fn.
  Proof. intros N (p & I & J). specialize (N p I). destruct J as [<-|[<-|[<-|[]]]]; cbn in N; destruct N as [N|[N|[N|[N|[]]]]]; discriminate. Qed.
  Lemma read_errors r m cases : returns_errors (response_func r m (JsonCodeModel.read_response cases)).
  Proof.
    intros _. do 4 right. left. eexists [_]. reflexivity.
  Qed.
  Lemma nothing_errors (f : list stm -> func) : fn_body (f nothing) = nothing -> returns_errors (f nothing).
  Proof. intros E _. left. exact E. Qed.
  Lemma page_errors r m special body rs : read_page pkg v special m = Done (body, rs) -> returns_errors (response_func r m body).
  Proof.
    unfold read_page. destruct (last_named nItems (m_params m)); [|discriminate]. destruct (type_at _ v) as [t|]; [|discriminate].
    destruct (JsonCodeModel.read_parameters pkg v _) as [[cases l1]| |]; try discriminate. destruct (JsonCodeModel.read_value pkg v _ _ t false) as [[code l2]| |]; try discriminate.
    intros E. injection E as <- _. apply read_errors.
  Qed.

  Lemma method_errors r m x rs fn : method_code pkg v r m = Done (x, rs) -> In fn x -> returns_errors fn.
  Proof.
    unfold method_code. cbv zeta.
    assert (Go : forall code, (forall q p l, code = Done (q, p, l) -> returns_errors (request_func r m q) /\ returns_errors (response_func r m p)) ->
      match code with Done (q, p, l) => Done ([request_func r m q; response_func r m p], l) | _ => Panics end = Done (x, rs) -> In fn x -> returns_errors fn).
    { intros [[[q p] l]| |] H E I; try discriminate. destruct (H q p l eq_refl) as (H1 & H2). injection E as <- _. destruct I as [<-|[<-|[]]]; auto. }
    assert (N1 : returns_errors (request_func r m nothing)) by now apply (nothing_errors (request_func r m)).
    assert (N2 : returns_errors (response_func r m nothing)) by now apply (nothing_errors (response_func r m)).
    assert (M : forall t f, returns_errors (request_func r m (marshal_field t f))) by (intros t f _; right; left; do 2 eexists; reflexivity).
    assert (U : forall t f, returns_errors (response_func r m (unmarshal_field t f))) by (intros t f _; right; right; left; do 3 eexists; reflexivity).
    assert (Ad : forall q p l, add_code v m = Done (q, p, l) -> returns_errors (request_func r m q) /\ returns_errors (response_func r m p)).
    { intros q p l E. unfold add_code in E. destruct (typed_parameter v nBody m) as [[b t]|]; [|discriminate]. injection E as <- <- _. auto. }
    destruct (is_add m); [now apply Go|]. destruct (is_delete m || is_async_delete m).
    { intros E. injection E as <- _. intros [<-|[<-|[]]]; auto. }
    destruct (is_get m). { apply Go. intros q p l E. unfold get_code in E. destruct (typed_parameter v nBody m) as [[b t]|]; [|discriminate]. injection E as <- <- _. auto. }
    destruct (is_list_method m).
    { apply Go. intros q p l E. unfold list_method_code in E. destruct (read_page pkg v _ m) as [[body rp]| |] eqn:P; try discriminate. injection E as <- <- _. split; [exact N1|]. now apply (page_errors r) in P. }
    destruct (is_post m).
    { apply Go. intros q p l E. unfold post_code in E. cbv zeta in E. destruct (last_parameter p_in m) as [b|]; [destruct (type_at (p_type b) v)|]; try discriminate;
        (destruct (last_parameter p_out m) as [b'|]; [destruct (type_at (p_type b') v)|]; try discriminate); injection E as <- <- _; auto. }
    destruct (is_search m).
    { apply Go. intros q p l E. unfold search_code in E. cbv zeta in E.
      assert (Q : forall q', Some q' = match last_named nBody (m_params m) with Some p => match type_at (p_type p) v with Some t => Some (marshal_field t (json_parameter_field p)) | None => None end | None => Some nothing end -> returns_errors (request_func r m q')).
      { intros q' Eq. destruct (last_named nBody (m_params m)) as [b|]; [destruct (type_at (p_type b) v); [|discriminate]|]; injection Eq as ->; auto. }
      destruct (match last_named nBody (m_params m) with Some p => match type_at (p_type p) v with Some t => Some (marshal_field t (json_parameter_field p)) | None => None end | None => Some nothing end) as [q'|]; [|discriminate].
      destruct (read_page pkg v _ m) as [[body rp]| |] eqn:P; try discriminate. injection E as <- <- _. split; [now apply Q|]. now apply (page_errors r) in P. }
    destruct (is_update m || is_async_update m); [now apply Go|].
    apply Go. intros q p l E. unfold action_code in E. destruct (JsonCodeModel.write_parameters v (request_body_params v m)) as [code| |]; try discriminate.
    destruct (JsonCodeModel.read_parameters pkg v (response_body_params m)) as [[cases rr]| |]; try discriminate. injection E as <- <- _. split.
    - destruct (request_body_params v m); [exact N1|]. intros _. do 3 right. left.
      eexists (TDefine ["count"] XZero :: TDefine ["stream"] (XCall "helpers.NewStream" [XVar "writer"]) :: write "WriteObjectStart" [] :: (code ++ [_])%list).
      split; [cbn [request_func fn_body app]; rewrite <- app_assoc; reflexivity|right; now left].
    - destruct (response_body_params m); [exact N2|apply read_errors].
  Qed.

  Lemma type_errors k t x rs fn : type_code pkg v k t = Done (x, rs) -> In fn x -> returns_errors fn.
  Proof.
    unfold type_code. destruct (is_struct t).
    { unfold struct_code, write_code, read_code. destruct (write_attributes v t 0 (t_attrs t)); try discriminate. destruct (read_attributes pkg v t 0 (t_attrs t)) as [[l r]| |]; try discriminate.
      intros E. injection E as <- _. intros [<-|[<-|[<-|[<-|[]]]]]; [apply marshal_errors| |apply unmarshal_errors|]; apply no_errors; cbn; intros p I; repeat destruct I as [<-|I]; try contradiction; cbn; tauto. }
    destruct (is_list t); [|intros E; injection E as <- _; intros []].
    destruct (element_of v t) as [[e te]|]; [|discriminate]. destruct (is_scalar te || is_struct te); [|intros E; injection E as <- _; intros []].
    unfold list_code. destruct (value_reference pkg v k t) as [[s l1]| |] eqn:V; try discriminate. destruct (JsonCodeModel.write_value v _ e te false) as [w| |]; try discriminate.
    destruct (JsonCodeModel.read_value pkg v "item" e te false) as [[code l2]| |]; try discriminate.
    intros E. injection E as <- _. intros [<-|[<-|[<-|[<-|[]]]]]; [apply marshal_errors| |apply unmarshal_errors|]; apply no_errors; cbn; intros p I; repeat destruct I as [<-|I]; try contradiction; cbn; tauto.
  Qed.

  Lemma json_errors fs rs fn : json_code pkg v = Done (fs, rs) -> In fn fs -> returns_errors fn.
  Proof.
    unfold json_code. intros H I.
    destruct (collect (fun kt => type_code pkg v (fst kt) (snd kt)) (v_types v)) as [[x l1]| |] eqn:C1; try discriminate.
    destruct (collect (fun r => collect (method_code pkg v r) (r_methods r)) (resources v)) as [[y l2]| |] eqn:C2; try discriminate.
    injection H as <- _. apply in_app_or in I as [I|I].
    - destruct (collected _ _ _ _ fn C1 I) as ((k & t) & z & l & _ & E & J). now apply (type_errors k t z l).
    - destruct (collected _ _ _ _ fn C2 I) as (r & z & l & _ & E & J). destruct (collected _ _ _ _ fn E J) as (m & z' & l' & _ & E' & J'). now apply (method_errors r m z' l').
  Qed.
End Version.
