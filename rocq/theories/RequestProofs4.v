(** Proofs about the responses with one member for each parameter. *)
From Coq Require Import Ascii String Bool Arith ZArith NArith Lia Permutation List.
From Verif Require Import GoStrings GoStringsProofs GoMap GoMapProofs NamesModel NamesProofs ConceptsModel BindingModel GoNamesModel ObjectsModel ObjectsSpec HelpersModel
  ClientsModel JsonModel JsonSpec JsonProofs JsonProofs2 JsonProofs3 JsonProofs4 JsonProofs5 JsonProofs6 JsonTextModel JsonTextSpec
  ChecksSpec ChecksProofs ChecksProofs2 BindingSpec BindingProofs ApiErrorModel RequestModel RequestSpec RequestProofs3.
Import ListNotations.
Local Open Scope string_scope.

Lemma has_name_called n ws p : n_words n = map (fun s => MkWord s false) ws -> (has_name n p = true <-> called ws (p_name p)).
Proof. intros H. unfold has_name, called. now rewrite name_equals_words, H. Qed.

Lemma has_name_not n ws ws' p : n_words n = map (fun s => MkWord s false) ws -> called ws' (p_name p) -> ws <> ws' -> has_name n p = false.
Proof.
  intros H C N. apply not_true_iff_false. intros E. apply (has_name_called n ws p H) in E. apply N. exact (called_unique _ _ _ E C).
Qed.

Section Cases.
  Context (o : oracle) (v : version) (m : method).

  Definition in_list (p : parameter) : bool := negb (is_action m) && has_name nItems p.
  Definition rcase (p : parameter) : case := if in_list p then items_case v p else parameter_case p.

  Lemma in_list_spec p : in_list p = true <-> listed m p.
  Proof.
    unfold in_list, listed. rewrite andb_true_iff, negb_true_iff, (has_name_called nItems ["items"] p eq_refl), <- is_action_spec.
    now rewrite not_true_iff_false.
  Qed.

  Lemma rcase_tag p f : member_for m p f <-> k_tag (rcase p) = f.
  Proof.
    unfold member_for, rcase. rewrite <- in_list_spec. destruct (in_list p); cbn; intuition congruence.
  Qed.

  Lemma rcase_field p : k_field (rcase p) = go_private (p_name p).
  Proof.
    unfold rcase. destruct (in_list p) eqn:E; [|reflexivity]. apply in_list_spec in E as [_ C]. unfold go_private. rewrite C. reflexivity.
  Qed.

  Lemma rcase_type p : k_type (rcase p) = p_type p.
  Proof. unfold rcase. now destruct (in_list p). Qed.

  Lemma rcase_wrap p x y : typed v (p_type p) false x -> received v m p y (k_wrap (rcase p) y).
  Proof.
    intros T. unfold received. rewrite <- in_list_spec. unfold rcase. destruct (in_list p); [|split; [intros [? _]; discriminate|reflexivity]].
    cbn [items_case k_wrap].
    assert (G : match type_at (p_type p) v with
      | Some t => is_list t && match type_at (elem_key t) v with Some e => is_scalar e | None => false end
      | None => false end = true <-> scalar_items v p).
    { unfold scalar_items, type_at. destruct (mget (p_type p) (v_types v)) as [t|] eqn:Gk.
      - split.
        + rewrite andb_true_iff. intros [L Sc]. unfold is_list in L. destruct (t_kind t) eqn:K; try discriminate.
          unfold typed in T. destruct x; rewrite Gk, K in T; destruct T as [(e & te & E & M & _) _];
            (exists t, e, te; repeat split; auto; unfold elem_key in Sc; rewrite E, M in Sc; now apply scalar_kind).
        + intros (t' & e & te & E & K & El & M & Sc). injection E as <-. rewrite andb_true_iff. split; [unfold is_list; now rewrite K|].
          unfold elem_key. rewrite El, M. now apply scalar_kind.
      - split; [discriminate|]. intros (t & _ & _ & E & _). discriminate. }
    destruct (match type_at (p_type p) v with
      | Some t => is_list t && match type_at (elem_key t) v with Some e => is_scalar e | None => false end
      | None => false end).
    - split; [|reflexivity]. intros [_ N]. exfalso. apply N. now apply G.
    - split; [reflexivity|]. intros N. exfalso. apply N. split; [reflexivity|]. intros Sc. apply G in Sc. discriminate.
  Qed.

  Context (Se : separable m).

  Lemma one_named n ws p : n_words n = map (fun s => MkWord s false) ws -> In p (m_params m) -> called ws (p_name p) ->
    last_parameter (has_name n) (m_params m) = Some p.
  Proof.
    intros Hn I C. assert (F : has_name n p = true) by (now apply (has_name_called n ws)).
    destruct (last_parameter (has_name n) (m_params m)) as [q|] eqn:E; [|now contradiction (last_exists _ _ _ I F)].
    apply last_found in E as [Iq Fq]. f_equal. apply (proj1 Se); auto. apply (has_name_called n ws q Hn) in Fq. unfold called in *. congruence.
  Qed.

  Lemma special_case n ws p : In ws [["page"]; ["size"]; ["total"]; ["items"]] -> n_words n = map (fun s => MkWord s false) ws -> ~ action m ->
    last_parameter (has_name n) (m_params m) = Some p -> response_parameter m p /\ called ws (p_name p).
  Proof.
    intros I Hn A E. apply last_found in E as [Ip Fp]. apply (has_name_called n ws p Hn) in Fp. split; [|exact Fp].
    exact (proj2 (proj2 (proj2 Se)) A p ws Ip I Fp).
  Qed.

  Lemma list_case search c : ~ action m -> (search = true <-> called ["search"] (m_name m)) ->
    (In c (list_cases v search m) <-> exists p, response_parameter m p /\ c = rcase p).
  Proof.
    intros A Sr. assert (Ia : is_action m = false) by (apply not_true_iff_false; now rewrite is_action_spec).
    assert (Rc : forall p, rcase p = if has_name nItems p then items_case v p else parameter_case p).
    { intros p. unfold rcase, in_list. now rewrite Ia. }
    unfold list_cases. rewrite in_app_iff, !map_app, !in_app_iff, !in_map_iff.
    assert (One : forall n ws, In ws [["page"]; ["size"]; ["total"]] -> n_words n = map (fun s => MkWord s false) ws ->
      forall x, In x match last_parameter (has_name n) (m_params m) with Some p => [p] | None => [] end ->
      response_parameter m x /\ parameter_case x = rcase x).
    { intros n ws I Hn x Ix. destruct (last_parameter (has_name n) (m_params m)) as [p|] eqn:E; [|contradiction]. destruct Ix as [<-|[]].
      destruct (special_case n ws p) as [R C]; auto; [cbn in *; tauto|]. split; [exact R|]. rewrite Rc, (has_name_not nItems ["items"] ws p); auto.
      intros <-. cbn in I. intuition discriminate. }
    split.
    - intros [[(x & <- & I)|[(x & <- & I)|[(x & <- & I)|(x & <- & I)]]]|(x & <- & I)].
      + destruct (One nPage ["page"] ltac:(cbn; tauto) eq_refl x I) as [R E]. exists x. auto.
      + destruct (One nSize ["size"] ltac:(cbn; tauto) eq_refl x I) as [R E]. exists x. auto.
      + destruct (One nTotal ["total"] ltac:(cbn; tauto) eq_refl x I) as [R E]. exists x. auto.
      + apply filter_In in I as [I F]. apply andb_true_iff in F as [F N]. apply negb_true_iff in N. rewrite !orb_false_iff in N.
        destruct N as ((((_ & _) & _) & Nb) & Ni). exists x. split.
        * split; [exact I|]. split; [exact F|]. intros C B. apply Sr in C. rewrite C in Nb. cbn [andb] in Nb.
          apply (has_name_called nBody ["body"] x eq_refl) in B. congruence.
        * now rewrite Rc, Ni.
      + destruct (last_parameter (has_name nItems) (m_params m)) as [p|] eqn:E; [|contradiction]. destruct I as [<-|[]].
        destruct (special_case nItems ["items"] p) as [R C]; auto; [cbn; tauto|]. exists p. split; [exact R|].
        rewrite Rc. apply (has_name_called nItems ["items"] p eq_refl) in C. now rewrite C.
    - intros (p & (I & F & B) & ->). rewrite Rc.
      destruct (has_name nItems p) eqn:Hi.
      + right. exists p. split; [reflexivity|]. apply (has_name_called nItems ["items"] p eq_refl) in Hi.
        rewrite (one_named nItems ["items"] p eq_refl I Hi). now left.
      + left. destruct (has_name nPage p) eqn:Hp; [|destruct (has_name nSize p) eqn:Hs; [|destruct (has_name nTotal p) eqn:Ht]].
        * left. exists p. split; [reflexivity|]. apply (has_name_called nPage ["page"] p eq_refl) in Hp.
          rewrite (one_named nPage ["page"] p eq_refl I Hp). now left.
        * right. left. exists p. split; [reflexivity|]. apply (has_name_called nSize ["size"] p eq_refl) in Hs.
          rewrite (one_named nSize ["size"] p eq_refl I Hs). now left.
        * right. right. left. exists p. split; [reflexivity|]. apply (has_name_called nTotal ["total"] p eq_refl) in Ht.
          rewrite (one_named nTotal ["total"] p eq_refl I Ht). now left.
        * right. right. right. exists p. split; [reflexivity|]. apply filter_In. split; [exact I|]. rewrite F, Hp, Hs, Ht, Hi. cbn [andb orb negb].
          destruct search; [|reflexivity]. cbn [andb orb negb]. destruct (has_name nBody p) eqn:Hb; [|reflexivity].
          exfalso. apply B; [now apply Sr|]. now apply (has_name_called nBody ["body"]).
  Qed.

  Lemma action_case c : action m -> (In c (map parameter_case (response_body_params m)) <-> exists p, response_parameter m p /\ c = rcase p).
  Proof.
    intros A. assert (Ia := proj2 (is_action_spec m) A). rewrite in_map_iff. unfold response_body_params, rcase, in_list. rewrite Ia. cbn.
    split.
    - intros (p & <- & I). apply filter_In in I as [I F]. exists p. split; [|reflexivity]. split; [exact I|]. split; [exact F|].
      intros C. exfalso. apply (A ["search"]); [|exact C]. cbn. tauto.
    - intros (p & (I & F & _) & ->). exists p. split; [reflexivity|]. now apply filter_In.
  Qed.

  Lemma found cases p f : (forall c, In c cases <-> exists p, response_parameter m p /\ c = rcase p) -> response_parameter m p -> member_for m p f ->
    case_of cases f = Some (rcase p).
  Proof.
    intros H R M. assert (K := proj1 (rcase_tag p f) M). unfold case_of.
    destruct (find (fun c => String.eqb f (k_tag c)) cases) as [c|] eqn:E.
    - apply find_some in E as [I T]. apply String.eqb_eq in T. apply H in I as (q & Rq & ->). f_equal. f_equal.
      symmetry in T. apply rcase_tag in T. exact (proj1 (proj2 Se) q p f Rq R T M).
    - exfalso. assert (I : In (rcase p) cases) by (apply H; eauto). apply (find_none _ _ E) in I. rewrite K, String.eqb_refl in I. discriminate.
  Qed.

  Lemma found_back cases f c : (forall c, In c cases <-> exists p, response_parameter m p /\ c = rcase p) -> case_of cases f = Some c ->
    exists p, response_parameter m p /\ member_for m p f /\ c = rcase p.
  Proof.
    intros H E. unfold case_of in E. apply find_some in E as [I T]. apply String.eqb_eq in T. apply H in I as (q & Rq & ->).
    exists q. split; [exact Rq|]. split; [|reflexivity]. now apply rcase_tag.
  Qed.

  Context (St : standard v) (Co : compiles v) (Fa : faithful o).

  Lemma object_members ms : response_object m -> response_params m <> [] -> clean (JObj ms) -> NoDup (map fst ms) ->
    (forall p f j, response_parameter m p -> member_for m p f -> In (f, j) ms -> exists x, represents o v (p_type p) x j) ->
    exists fs, read_response o v m (tokens (JObj ms)) = Ok fs [] /\
      (forall p f j x, response_parameter m p -> member_for m p f -> In (f, j) ms -> represents o v (p_type p) x j ->
        exists y z, mget (go_private (p_name p)) fs = Some z /\ same v (p_type p) false x y /\ received v m p y z) /\
      (forall p f, response_parameter m p -> member_for m p f -> ~ In f (map fst ms) -> mget (go_private (p_name p)) fs = None).
  Proof.
    intros Ro Rp Cl Nd Rep.
    assert (G : exists cases, (forall c, In c cases <-> exists p, response_parameter m p /\ c = rcase p) /\
      read_response o v m (tokens (JObj ms)) = read_cases o v (fuel (tokens (JObj ms))) cases [] (tokens (JObj ms))).
    { destruct Ro as [C|[C|A]].
      - exists (list_cases v false m). split.
        + intros c. apply list_case.
          * intros A. apply (A ["list"]); [cbn; tauto|exact C].
          * split; [discriminate|]. intros Q. assert (["search"] = ["list"]) by exact (called_unique _ _ _ Q C). discriminate.
        + unfold read_response. cbv zeta. kinds C. reflexivity.
      - exists (list_cases v true m). split.
        + intros c. apply list_case.
          * intros A. apply (A ["search"]); [cbn; tauto|exact C].
          * split; auto.
        + unfold read_response. cbv zeta. kinds C. reflexivity.
      - exists (map parameter_case (response_body_params m)). split; [intros c; now apply action_case|].
        destruct (action_kinds m A) as (K1 & K2 & K3 & K4 & K5 & K6 & K7 & K8 & K9).
        unfold read_response. cbv zeta. rewrite K1, K2, K3, K4, K5, K6, K7, K8, K9. cbn [orb].
        change (response_params m) with (response_body_params m) in Rp. now destruct (response_body_params m). }
    destruct G as (cases & H & ->).
    destruct (cases_decoded o v cases ms Nd) with (fs := @nil (string * value)) as (fs & E & R1 & R2).
    - intros f g c d Ef Eg Nf Q. apply (found_back _ _ _ H) in Ef as (p & Rp' & Mp & ->). apply (found_back _ _ _ H) in Eg as (q & Rq & Mq & ->).
      rewrite !rcase_field in Q. assert (p = q) as -> by exact (proj1 (proj2 (proj2 Se)) p q Rp' Rq Q). apply Nf.
      apply rcase_tag in Mp, Mq. congruence.
    - intros f j c I Ec. apply (found_back _ _ _ H) in Ec as (p & Rp' & Mp & ->). destruct (Rep p f j Rp' Mp I) as (x & Rx).
      destruct (represented o v St Co Fa _ _ _ Rx) as (y & D & _). rewrite rcase_type. eauto.
    - exists fs. split; [|split].
      + rewrite <- (app_nil_r (tokens (JObj ms))) at 2. rewrite cases_start by (auto; unfold fuel; lia). now rewrite E.
      + intros p f j x Rp' Mp I Rx. destruct (represented o v St Co Fa _ _ _ Rx) as (y & D & Sm & _).
        exists y, (k_wrap (rcase p) y). split; [|split; [exact Sm|]].
        * rewrite <- rcase_field. apply (R1 f j); auto; [now apply found|now rewrite rcase_type].
        * apply (rcase_wrap p x). now destruct Rx.
      + intros p f Rp' Mp N. rewrite (R2 (go_private (p_name p))); [reflexivity|]. intros g j c I Ec Q.
        apply (found_back _ _ _ H) in Ec as (q & Rq & Mq & ->). rewrite rcase_field in Q.
        assert (q = p) as -> by exact (proj1 (proj2 (proj2 Se)) q p Rq Rp' Q). apply N. apply rcase_tag in Mp, Mq.
        assert (f = g) as -> by congruence. now apply in_map with (f := fst) in I.
  Qed.
End Cases.
