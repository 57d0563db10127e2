(** Proofs about the checks of the methods. *)
From Coq Require Import Ascii String Bool Arith ZArith Lia Permutation List.
From Verif Require Import GoStrings GoStringsProofs GoMap GoMapProofs NamesModel NamesSpec NamesProofs
  ConceptsModel ConceptsSpec ConceptsProofs ReporterModel ReaderModel ChecksModel ReaderSpec ReaderProofs7
  ChecksSpec.
Import ListNotations.
Local Open Scope string_scope.

(** * Lists with one special element *)

Lemma one_of_iff {A} (P Q P' Q' : A -> Prop) l :
  (forall a, In a l -> P a <-> P' a) -> (forall a, In a l -> Q a <-> Q' a) ->
  (one_of P Q l <-> one_of P' Q' l).
Proof.
  intros HP HQ. split; intros (l1 & b & l2 & -> & Hb & Ho); exists l1, b, l2; (split; [reflexivity|]);
    (split; [apply HP; [apply in_elt|assumption]|]); rewrite Forall_forall in *;
    intros a Ha; apply HQ; auto; apply in_app_iff in Ha; apply in_app_iff; simpl; tauto.
Qed.

Lemma one_of_and {A} (P Q R : A -> Prop) l :
  Forall R l /\ one_of P Q l <-> one_of (fun a => P a /\ R a) (fun a => Q a /\ R a) l.
Proof.
  split.
  - intros [HR (l1 & b & l2 & -> & Hb & Ho)]. exists l1, b, l2. split; [reflexivity|].
    apply Forall_app in HR as [H1 H2]. inversion H2; subst. split; [auto|].
    apply Forall_app in Ho as [O1 O2]. apply Forall_app. split; apply Forall_and; auto.
  - intros (l1 & b & l2 & -> & [Hb Rb] & Ho). apply Forall_and_inv in Ho as [Ho Hr].
    split; [|exists l1, b, l2; auto]. apply Forall_app in Hr as [H1 H2]. apply Forall_app. auto.
Qed.

Lemma filter_one {A} (f : A -> bool) (l : list A) :
  List.length (filter f l) = 1 <-> one_of (fun a => f a = true) (fun a => f a = false) l.
Proof.
  split.
  - induction l as [|a l IH]; simpl; [discriminate|]. destruct (f a) eqn:E.
    + simpl. intros H. injection H as H. exists [], a, l. simpl. split; [reflexivity|]. split; [assumption|].
      apply length_zero_iff_nil in H. clear IH. induction l as [|b l IH]; [constructor|]. simpl in H.
      destruct (f b) eqn:Eb; [discriminate|]. constructor; auto.
    + intros H. destruct (IH H) as (l1 & b & l2 & -> & Hb & Ho). exists (a :: l1), b, l2. simpl. auto.
  - intros (l1 & b & l2 & -> & Hb & Ho). apply Forall_app in Ho as [H1 H2].
    assert (N : forall m, Forall (fun a => f a = false) m -> filter f m = []).
    { intros m. induction 1 as [|a m Ha _ IH]; simpl; [reflexivity|]. now rewrite Ha. }
    rewrite filter_app. simpl. rewrite Hb, (N l1 H1), (N l2 H2). reflexivity.
Qed.

Lemma filter_one_all {A} (f : A -> bool) (P : A -> Prop) (l : list A) :
  List.length (filter f l) = 1 /\ Forall P (filter f l) <->
  one_of (fun a => f a = true /\ P a) (fun a => f a = false) l.
Proof.
  rewrite filter_one. split.
  - intros [(l1 & b & l2 & -> & Hb & Ho) H]. exists l1, b, l2. split; [reflexivity|]. split; [|assumption].
    split; [assumption|]. rewrite Forall_forall in H. apply H. apply filter_In. split; [apply in_elt|assumption].
  - intros (l1 & b & l2 & -> & [Hb HP] & Ho). split; [exists l1, b, l2; auto|].
    apply Forall_forall. intros a Ha. apply filter_In in Ha as [Ha E]. rewrite Forall_forall in Ho.
    apply in_app_iff in Ha as [Ha|[<-|Ha]]; [|assumption|];
      specialize (Ho a); rewrite Ho in E by (apply in_app_iff; auto); discriminate.
Qed.

Lemma filter_forall {A} (f : A -> bool) (P : A -> Prop) (l : list A) :
  Forall P (filter f l) <-> Forall (fun a => f a = true -> P a) l.
Proof.
  rewrite !Forall_forall. split.
  - intros H a Ha E. apply H. apply filter_In. auto.
  - intros H a Ha. apply filter_In in Ha as [Ha E]. auto.
Qed.

Lemma forall_and_iff {A} (P Q : A -> Prop) l : Forall (fun a => P a /\ Q a) l <-> Forall P l /\ Forall Q l.
Proof. split; [apply Forall_and_inv|intros []; now apply Forall_and]. Qed.

(** * Absence of errors *)

Lemma no_errors_nil : no_errors [].
Proof. intros m []. Qed.

Lemma no_errors_cons_err m l : ~ no_errors (err m :: l).
Proof. intros H. apply (H m). now left. Qed.

Lemma no_errors_concat ls : no_errors (concat ls) <-> Forall no_errors ls.
Proof.
  induction ls as [|l ls IH]; simpl.
  - split; [constructor|intros _; apply no_errors_nil].
  - rewrite no_errors_app, IH. split; [intros []; now constructor|intros H; inversion H; auto].
Qed.

Lemma no_errors_flat_map {A} (f : A -> list report) l :
  no_errors (flat_map f l) <-> Forall (fun a => no_errors (f a)) l.
Proof.
  rewrite flat_map_concat_map, no_errors_concat. rewrite !Forall_forall. split.
  - intros H a Ha. apply H. now apply in_map.
  - intros H x Hx. apply in_map_iff in Hx as (a & <- & Ha). auto.
Qed.

Lemma no_errors_if (b : bool) m : no_errors (if b then [err m] else []) <-> b = false.
Proof.
  destruct b; split; try discriminate; auto using no_errors_nil.
  intros H. now apply no_errors_cons_err in H.
Qed.

Lemma no_errors_each l bad msg : no_errors (each l bad msg) <-> Forall (fun p => bad p = false) l.
Proof.
  unfold each. rewrite no_errors_flat_map. rewrite !Forall_forall. split; intros H p Hp; specialize (H p Hp);
    now apply no_errors_if in H || apply no_errors_if.
Qed.

Lemma no_errors_unless {A} (l : list A) msg : no_errors (unless_one l msg) <-> List.length l = 1.
Proof.
  unfold unless_one. destruct (Nat.eqb_spec (List.length l) 1) as [E|E].
  - split; auto using no_errors_nil.
  - split; [intros H; now apply no_errors_cons_err in H|contradiction].
Qed.

(** * Reflection of the tests *)

Section Tests.
  Context (sc : scope).
  Let v := sc_version sc.

  Lemma kind_eqb_eq a b : kind_eqb a b = true <-> a = b.
  Proof. destruct a, b; simpl; split; congruence. Qed.

  Lemma param_kind p ks : ~ In UndefinedType ks ->
    (In (t_kind (param_type sc p)) ks <-> kind_in ks v p).
  Proof.
    intros Hu. unfold param_type, kind_in, type_at. fold v. destruct (mget (p_type p) (v_types v)) as [t|].
    - split; [eauto|]. intros (t' & [= <-] & H). exact H.
    - simpl. split; [contradiction|]. intros (t & H & _). discriminate.
  Qed.

  Lemma scalar_spec p : p_scalar sc p = true <-> scalar_param v p.
  Proof.
    unfold scalar_param. rewrite <- param_kind by (simpl; intros H; repeat destruct H as [H|H]; try discriminate; contradiction).
    unfold p_scalar, is_scalar. rewrite !orb_true_iff, !kind_eqb_eq. simpl. intuition congruence.
  Qed.

  Lemma struct_spec p : p_struct sc p = true <-> struct_param v p.
  Proof.
    unfold struct_param. rewrite <- param_kind by (simpl; intros H; repeat destruct H as [H|H]; try discriminate; contradiction).
    unfold p_struct, is_struct. rewrite !orb_true_iff, !kind_eqb_eq. simpl. intuition congruence.
  Qed.

  Lemma list_spec p : p_list sc p = true <-> list_param v p.
  Proof.
    unfold list_param. rewrite <- param_kind by (simpl; intros H; repeat destruct H as [H|H]; try discriminate; contradiction).
    unfold p_list, is_list. rewrite !kind_eqb_eq. simpl. intuition congruence.
  Qed.

  (** The three kinds exclude each other. *)
  Lemma kinds_exclusive p :
    (p_scalar sc p = true -> p_struct sc p = false /\ p_list sc p = false) /\
    (p_struct sc p = true -> p_scalar sc p = false /\ p_list sc p = false) /\
    (p_list sc p = true -> p_scalar sc p = false /\ p_struct sc p = false).
  Proof.
    unfold p_scalar, p_struct, p_list, is_scalar, is_struct, is_list.
    destruct (t_kind (param_type sc p)); simpl; repeat split; discriminate.
  Qed.

  Lemma named_spec n ws p : n_words n = map (fun s => MkWord s false) ws ->
    (named n p = true <-> called ws (p_name p)).
  Proof.
    intros H. unfold named. rewrite name_equals_words, H. unfold called. split; congruence.
  Qed.

  Lemma named_body p : named nBody p = true <-> called ["body"] (p_name p).
  Proof. now apply named_spec. Qed.

  Lemma named_items p : named nItems p = true <-> called ["items"] (p_name p).
  Proof. now apply named_spec. Qed.

  Lemma get_first n ws m : n_words n = map (fun s => MkWord s false) ws ->
    (forall p, get_parameter n m = Some p <-> first_called ws (m_params m) p).
  Proof.
    intros Hn p. unfold get_parameter, first_called, called.
    assert (E : forall q, name_equals (Some (p_name q)) (Some n) = true <-> n_words (p_name q) = map (fun s => MkWord s false) ws).
    { intros q. rewrite name_equals_words, Hn. reflexivity. }
    induction (m_params m) as [|q l IH].
    - simpl. split; [discriminate|]. intros (l1 & l2 & H & _). now destruct l1.
    - cbn [find]. destruct (name_equals (Some (p_name q)) (Some n)) eqn:Eq.
      + apply E in Eq. split.
        * intros [= <-]. exists [], l. simpl. auto.
        * intros (l1 & l2 & H & Hp & Hf). destruct l1 as [|a l1]; simpl in H; injection H as <- ->; [reflexivity|].
          inversion Hf. contradiction.
      + rewrite IH. split.
        * intros (l1 & l2 & -> & Hp & Hf). exists (q :: l1), l2. simpl. repeat split; auto.
          constructor; auto. rewrite <- E. congruence.
        * intros (l1 & l2 & H & Hp & Hf). destruct l1 as [|a l1]; simpl in H; injection H as <- ->.
          -- apply E in Hp. congruence.
          -- inversion Hf. exists l1, l2. auto.
  Qed.

  (** * Each kind of method *)

  Ltac errs := cbv beta iota zeta; rewrite no_errors_concat, ?Forall_cons_iff;
    rewrite ?no_errors_each, ?no_errors_unless.

  Ltac bools p := pose proof (kinds_exclusive p); unfold in_out, only_in, only_out;
    rewrite <- ?scalar_spec, <- ?struct_spec, <- ?list_spec, <- ?named_body, <- ?named_items;
    destruct (p_scalar sc p), (p_struct sc p), (p_list sc p), (p_in p), (p_out p), (named nBody p), (named nItems p);
    simpl; intuition discriminate.

  Lemma check_add_spec m : no_errors (check_add sc m) <-> accepted_add v (m_params m).
  Proof.
    unfold check_add. errs. unfold accepted_add.
    rewrite <- (one_of_iff
      (fun a => ((p_struct sc a = true /\ (negb (p_in a) || negb (p_out a) = false /\ negb (named nBody a) = false)) /\
                 negb (p_scalar sc a) && negb (p_struct sc a) = false))
      (fun a => p_struct sc a = false /\ negb (p_scalar sc a) && negb (p_struct sc a) = false)).
    2:{ intros p _. bools p. }
    2:{ intros p _. bools p. }
    rewrite <- one_of_and, <- filter_one_all, !forall_and_iff. intuition.
  Qed.

  Lemma check_delete_spec m : no_errors (check_delete sc m) <-> accepted_delete v (m_params m).
  Proof.
    unfold check_delete. errs. unfold accepted_delete.
    transitivity (Forall (fun p => negb (p_scalar sc p) = false /\ negb (p_in p) || p_out p = false) (m_params m)).
    - rewrite forall_and_iff. intuition.
    - rewrite !Forall_forall. split; intros H p Hp; specialize (H p Hp); revert H; bools p.
  Qed.

  Lemma check_get_spec m : no_errors (check_get sc m) <-> accepted_get v (m_params m).
  Proof.
    unfold check_get. errs. unfold accepted_get.
    rewrite <- (one_of_iff
      (fun a => ((p_struct sc a = true /\ (negb (p_out a) || p_in a = false /\ negb (named nBody a) = false)) /\
                 (negb (p_scalar sc a) && negb (p_struct sc a) = false /\
                  p_scalar sc a && (negb (p_in a) || p_out a) = false)))
      (fun a => p_struct sc a = false /\
                (negb (p_scalar sc a) && negb (p_struct sc a) = false /\
                 p_scalar sc a && (negb (p_in a) || p_out a) = false))).
    2:{ intros p _. bools p. }
    2:{ intros p _. bools p. }
    rewrite <- one_of_and, <- filter_one_all, !forall_and_iff. intuition.
  Qed.

  Lemma check_update_spec m : no_errors (check_update sc m) <-> accepted_update v (m_params m).
  Proof.
    unfold check_update. errs. unfold accepted_update.
    rewrite <- (one_of_iff
      (fun a => ((p_struct sc a || p_list sc a = true /\
                  (negb (p_in a) || negb (p_out a) = false /\ negb (named nBody a) = false)) /\
                 (negb (p_scalar sc a) && negb (p_struct sc a) && negb (p_list sc a) = false /\
                  p_scalar sc a && (negb (p_in a) || p_out a) = false)))
      (fun a => p_struct sc a || p_list sc a = false /\
                (negb (p_scalar sc a) && negb (p_struct sc a) && negb (p_list sc a) = false /\
                 p_scalar sc a && (negb (p_in a) || p_out a) = false))).
    2:{ intros p _. bools p. }
    2:{ intros p _. bools p. }
    rewrite <- one_of_and, <- (filter_one_all (fun a => p_struct sc a || p_list sc a)), !forall_and_iff. intuition.
  Qed.

  (** Paging *)

  Lemma request_spec m n ws d : n_words n = map (fun s => MkWord s false) ws ->
    (no_errors (check_request_parameter sc m n d) <->
     forall p, first_called ws (m_params m) p -> p_type p = "integer" /\ in_out p /\ p_default p = Some (LInt d)).
  Proof.
    intros Hn. unfold check_request_parameter. pose proof (get_first n ws m Hn) as G.
    destruct (get_parameter n m) as [p|].
    - errs. rewrite !Forall_cons_iff.
      assert (D : negb (default_is d p) = false <-> p_default p = Some (LInt d)).
      { unfold default_is. destruct (p_default p) as [[b|z|s]|]; simpl; try (split; discriminate).
        destruct (Z.eqb_spec z d) as [->|Hz]; simpl; split; congruence. }
      assert (I : negb (is_builtin nInteger (p_type p)) = false <-> p_type p = "integer").
      { unfold is_builtin. change (name_key nInteger) with "integer".
        destruct (String.eqb_spec (p_type p) "integer"); simpl; split; congruence. }
      rewrite D, I. unfold in_out. split.
      + intros [[Ht _] [[Hd _] [[Hl _] _]]] q Hq. apply G in Hq. injection Hq as <-.
        destruct (p_in p), (p_out p); simpl in Hd; auto; discriminate.
      + intros H. destruct (H p) as (Ht & [Hi Ho] & Hl); [now apply G|]. rewrite Hi, Ho. repeat split; auto.
    - split; [|intros _ x [H|[]]; discriminate].
      intros _ p Hp. apply G in Hp. discriminate.
  Qed.

  Lemma response_spec m n ws : n_words n = map (fun s => MkWord s false) ws ->
    (no_errors (check_response_parameter sc m n) <->
     forall p, first_called ws (m_params m) p -> p_type p = "integer" /\ only_out p).
  Proof.
    intros Hn. unfold check_response_parameter. pose proof (get_first n ws m Hn) as G.
    destruct (get_parameter n m) as [p|].
    - errs. rewrite !Forall_cons_iff.
      assert (I : negb (is_builtin nInteger (p_type p)) = false <-> p_type p = "integer").
      { unfold is_builtin. change (name_key nInteger) with "integer".
        destruct (String.eqb_spec (p_type p) "integer"); simpl; split; congruence. }
      rewrite I. unfold only_out. split.
      + intros [[Ht _] [[Hd _] _]] q Hq. apply G in Hq. injection Hq as <-.
        destruct (p_in p), (p_out p); simpl in Hd; auto; discriminate.
      + intros H. destruct (H p) as (Ht & [Hi Ho]); [now apply G|]. rewrite Hi, Ho. repeat split; auto.
    - split; [|intros _ x [H|[]]; discriminate].
      intros _ p Hp. apply G in Hp. discriminate.
  Qed.

  Lemma items_spec m : no_errors (check_items sc m) <-> exists p, In p (m_params m) /\ called ["items"] (p_name p).
  Proof.
    unfold check_items. pose proof (get_first nItems ["items"] m eq_refl) as G.
    destruct (get_parameter nItems m) as [p|] eqn:E.
    - split; auto using no_errors_nil. intros _. destruct (proj1 (G p) eq_refl) as (l1 & l2 & -> & H & _).
      exists p. split; [apply in_elt|assumption].
    - split; [intros H; now apply no_errors_cons_err in H|].
      intros (p & Hp & Hc). exfalso. unfold get_parameter in E.
      apply (find_none _ _ E p) in Hp. rewrite <- not_true_iff_false, name_equals_words in Hp. now apply Hp.
  Qed.

  Lemma paging_spec m : no_errors (check_paging sc m) <->
    one_of (fun p => list_param v p /\ only_out p /\ called ["items"] (p_name p)) (fun p => ~ list_param v p) (m_params m) /\
    paging_ok (m_params m).
  Proof.
    unfold check_paging. errs.
    rewrite (request_spec m nPage ["page"] 1 eq_refl), (request_spec m nSize ["size"] 100 eq_refl),
      (response_spec m nTotal ["total"] eq_refl), items_spec. unfold paging_ok.
    rewrite <- (one_of_iff
      (fun a => p_list sc a = true /\ (p_in a || negb (p_out a) = false /\ negb (named nItems a) = false))
      (fun a => p_list sc a = false)).
    2:{ intros p _. bools p. }
    2:{ intros p _. rewrite <- list_spec. destruct (p_list sc p); intuition congruence. }
    rewrite <- filter_one_all, !forall_and_iff.
    split; [tauto|].
    intros [(H1 & H2 & H3) H4].
    enough (He : exists p, In p (m_params m) /\ called ["items"] (p_name p)).
    { assert (Forall no_errors []) by constructor. tauto. }
    destruct (filter (p_list sc) (m_params m)) as [|p l] eqn:E; [discriminate|].
    assert (Hp : In p (filter (p_list sc) (m_params m))) by (rewrite E; now left).
    apply filter_In in Hp as [Hp _]. exists p. split; [assumption|]. inversion H3; subst.
    apply named_items. now destruct (named nItems p).
  Qed.

  Lemma check_list_spec m : no_errors (check_list sc m) <-> accepted_list v (m_params m).
  Proof.
    unfold check_list. errs. rewrite paging_spec. unfold accepted_list.
    rewrite <- (one_of_iff
      (fun a => (list_param v a /\ only_out a /\ called ["items"] (p_name a)) /\ negb (p_scalar sc a) && negb (p_list sc a) = false)
      (fun a => ~ list_param v a /\ negb (p_scalar sc a) && negb (p_list sc a) = false)
      (fun p => list_param v p /\ only_out p /\ called ["items"] (p_name p)) (scalar_param v)).
    2:{ intros p _. bools p. }
    2:{ intros p _. bools p. }
    rewrite <- one_of_and. intuition.
  Qed.

  Lemma at_most_one {A} (f : A -> bool) l : Nat.ltb 1 (List.length (filter f l)) = false <->
    Forall (fun a => f a = false) l \/ one_of (fun a => f a = true) (fun a => f a = false) l.
  Proof.
    rewrite <- filter_one, Nat.ltb_ge. split.
    - intros H. destruct (filter f l) as [|a [|b r]] eqn:E; [left|now right|simpl in H; lia].
      apply Forall_forall. intros x Hx. destruct (f x) eqn:Ex; [|reflexivity].
      assert (In x (filter f l)) by now apply filter_In. rewrite E in H0. contradiction.
    - intros [H|H]; [|lia]. replace (filter f l) with (@nil A); [simpl; lia|].
      induction H as [|a l Ha _ IH]; simpl; [reflexivity|]. now rewrite Ha.
  Qed.

  Lemma check_post_spec m : no_errors (check_post sc m) <-> accepted_post v (m_params m).
  Proof.
    unfold check_post. errs. rewrite no_errors_if, at_most_one. unfold accepted_post.
    rewrite filter_forall.
    rewrite <- (one_of_iff (fun a => p_out a = true /\ negb (p_struct sc a) = false) (fun a => p_out a = false)
      (fun p => p_out p = true /\ struct_param v p) (fun p => p_out p = false)).
    2:{ intros p _. rewrite <- struct_spec. destruct (p_struct sc p); intuition discriminate. }
    2:{ reflexivity. }
    rewrite <- filter_one_all.
    assert (E : Forall (fun a => p_in a = true -> negb (p_struct sc a) = false) (m_params m) <->
                Forall (fun p => p_in p = true -> struct_param v p) (m_params m)).
    { rewrite !Forall_forall. split; intros H p Hp Hi; specialize (H p Hp Hi); revert H; rewrite <- struct_spec;
        destruct (p_struct sc p); auto. }
    rewrite E. intuition.
  Qed.

  Lemma one_of_perm {A} (P Q : A -> Prop) l m : Permutation l m -> one_of P Q l -> one_of P Q m.
  Proof.
    intros Hp (l1 & b & l2 & -> & Hb & Ho).
    assert (Hin : In b m) by (eapply Permutation_in; [exact Hp|apply in_elt]).
    apply in_split in Hin as (m1 & m2 & ->). exists m1, b, m2. split; [reflexivity|]. split; [assumption|].
    apply Permutation_app_inv in Hp. rewrite Forall_forall in *. intros a Ha. apply Ho.
    eapply Permutation_in; [apply Permutation_sym; exact Hp|exact Ha].
  Qed.

  Lemma check_search_spec m : directed (m_params m) ->
    (no_errors (check_search sc m) <-> accepted_search v (m_params m)).
  Proof.
    intros Hd. unfold check_search. errs. rewrite paging_spec, !filter_forall.
    rewrite no_errors_flat_map.
    assert (B : Forall (fun p => no_errors (concat
        [each [p] (fun p => p_out p || negb (p_in p)) (fun p => "Direction of parameter '" ++ param_fqn sc p ++ "' should be 'in'");
         each [p] (fun p => negb (named nBody p))
           (fun p => "Name of parameter '" ++ param_fqn sc p ++ "' should be be '" ++ camel nBody ++ "'")]))
        (filter (fun p => p_struct sc p && p_in p) (m_params m)) <->
      Forall (fun p => only_in p /\ called ["body"] (p_name p)) (filter (fun p => p_struct sc p && p_in p) (m_params m))).
    { assert (E : forall p, no_errors (concat
        [each [p] (fun p => p_out p || negb (p_in p)) (fun p => "Direction of parameter '" ++ param_fqn sc p ++ "' should be 'in'");
         each [p] (fun p => negb (named nBody p))
           (fun p => "Name of parameter '" ++ param_fqn sc p ++ "' should be be '" ++ camel nBody ++ "'")]) <->
        only_in p /\ called ["body"] (p_name p)).
      { intros p. errs. rewrite !Forall_cons_iff.
        assert (Forall no_errors []) by constructor.
        assert (Fn : forall P : parameter -> Prop, Forall P []) by constructor.
        pose proof (Fn (fun p => p_out p || negb (p_in p) = false)). pose proof (Fn (fun p => negb (named nBody p) = false)).
        clear Fn. rewrite <- named_body. unfold only_in.
        destruct (p_in p), (p_out p), (named nBody p); simpl; intuition discriminate. }
      rewrite !Forall_forall. split; intros H p Hp; specialize (H p Hp); now apply E. }
    rewrite B. clear B. unfold accepted_search.
    pose proof (filter_one_all (fun p => p_struct sc p && p_in p) (fun p => only_in p /\ called ["body"] (p_name p)) (m_params m)) as F.
    split.
    - intros (H1 & H2 & [H3 Hp] & H4 & H5 & _). split; [|exact Hp].
      assert (F' := proj1 F (conj H4 H5)). clear F H4 H5 Hp.
      destruct H3 as (l1 & items & l2 & E & (Hil & Hio & Hin) & Hl).
      rewrite E in *. clear E m.
      assert (P : Permutation (l1 ++ items :: l2) (items :: l1 ++ l2)) by (apply Permutation_sym, Permutation_middle).
      apply (one_of_perm _ _ _ _ P) in F'. destruct F' as (m1 & body & m2 & E & (Hbs & Hbi & Hbn) & Hb).
      apply andb_true_iff in Hbs as [Hbs _]. apply struct_spec in Hbs.
      destruct m1 as [|x m1]; injection E as <- E.
      { exfalso. revert Hil Hbs. bools items. }
      exists items, body, (m1 ++ m2)%list. split.
      { rewrite P, E. apply perm_skip, Permutation_sym, Permutation_middle. }
      repeat (split; [assumption|]).
      apply Forall_forall. intros p Hp.
      assert (Hp' : In p (l1 ++ l2)) by (rewrite E; apply in_app_iff; apply in_app_iff in Hp; simpl; tauto).
      assert (Hp0 : In p (l1 ++ items :: l2)) by (apply in_app_iff; apply in_app_iff in Hp'; simpl; tauto).
      rewrite Forall_forall in *. specialize (H1 p Hp0). specialize (H2 p Hp0). specialize (Hl p Hp').
      specialize (Hb p (or_intror Hp)). unfold directed in Hd. rewrite Forall_forall in Hd. specialize (Hd p Hp0).
      clear P E Hp Hp' Hp0 Hil Hio Hin Hbs Hbi Hbn. revert H1 H2 Hl Hb Hd. bools p.
    - intros [(items & body & others & P & Hil & Hio & Hin & Hbs & Hbi & Hbn & Ho) Hp].
      assert (F1 : Forall (fun a => p_out a = true -> negb (p_scalar sc a) && negb (p_list sc a) = false) (m_params m)).
      { apply Forall_forall. intros p Hx. apply (Permutation_in _ P) in Hx as [<-|[<-|Hx]].
        - clear - Hil. revert Hil. bools items.
        - clear - Hbi. revert Hbi. bools body.
        - rewrite Forall_forall in Ho. specialize (Ho p Hx). clear - Ho. revert Ho. bools p. }
      assert (F2 : Forall (fun a => p_in a = true -> negb (p_scalar sc a) && negb (p_struct sc a) = false) (m_params m)).
      { apply Forall_forall. intros p Hx. apply (Permutation_in _ P) in Hx as [<-|[<-|Hx]].
        - clear - Hio. revert Hio. bools items.
        - clear - Hbs. revert Hbs. bools body.
        - rewrite Forall_forall in Ho. specialize (Ho p Hx). clear - Ho. revert Ho. bools p. }
      assert (F3 : one_of (fun p => list_param v p /\ only_out p /\ called ["items"] (p_name p)) (fun p => ~ list_param v p) (m_params m)).
      { apply (one_of_perm _ _ _ _ (Permutation_sym P)). exists [], items, (body :: others). split; [reflexivity|].
        split; [auto|]. simpl. constructor.
        - clear - Hbs. revert Hbs. bools body.
        - rewrite Forall_forall in *. intros p Hx. specialize (Ho p Hx). clear - Ho. revert Ho. bools p. }
      assert (F4 : one_of (fun a => p_struct sc a && p_in a = true /\ only_in a /\ called ["body"] (p_name a))
                     (fun a => p_struct sc a && p_in a = false) (m_params m)).
      { apply (one_of_perm _ _ _ _ (Permutation_sym P)). exists [items], body, others. split; [reflexivity|].
        split.
        - apply struct_spec in Hbs. rewrite Hbs, (proj1 Hbi). auto.
        - simpl. constructor.
          + clear - Hil. revert Hil. bools items.
          + rewrite Forall_forall in *. intros p Hx. specialize (Ho p Hx). clear - Ho. revert Ho. bools p. }
      apply F in F4. assert (Forall no_errors []) by constructor. tauto.
  Qed.

  Lemma check_parameter_spec p : no_errors (check_parameter sc p) <-> default_ok p.
  Proof.
    unfold check_parameter, default_ok. destruct (p_default p) as [l|]; [|split; auto using no_errors_nil].
    assert (E : forall n k m, name_key n = k ->
      (no_errors (if is_builtin n (p_type p) then [] else [err m]) <-> p_type p = k)).
    { intros n k msg <-. unfold is_builtin. destruct (String.eqb_spec (p_type p) (name_key n)) as [H|H].
      - split; auto using no_errors_nil.
      - split; [intros X; now apply no_errors_cons_err in X|contradiction]. }
    cbv zeta. destruct l; apply E; reflexivity.
  Qed.

  (** * All the methods *)

  Lemma method_called m n ws : n_words n = map (fun s => MkWord s false) ws ->
    (name_equals (Some (m_name m)) (Some n) = true <-> called ws (m_name m)).
  Proof. intros H. rewrite name_equals_words, H. reflexivity. Qed.

  Lemma called_unique ws ws' n : called ws n -> called ws' n -> ws = ws'.
  Proof.
    unfold called. intros -> E. apply (f_equal (map w_text)) in E. rewrite !map_map in E. simpl in E.
    now rewrite !map_id in E.
  Qed.

  Ltac pick M :=
    let H := fresh "H" in let N := fresh "N" in let Hp := fresh "Hp" in let Hc := fresh "Hc" in
    pose proof (proj1 M eq_refl) as H;
    assert (Forall no_errors []) by constructor;
    match type of H with
    | called ?w (m_name ?m) =>
        assert (N : forall ws, ws <> w -> ~ called ws (m_name m));
        [ let ws := fresh in let Hw := fresh in intros ws Hw Hc; apply Hw; exact (called_unique _ _ _ Hc H)
        | simpl; split; [|tauto];
          intros (? & Hp & _); refine (conj Hp _);
          refine (conj _ (conj _ (conj _ (conj _ (conj _ (conj _ _)))))); intros Hc;
          first [ tauto
                | exfalso; (destruct Hc as [Hc|Hc] || idtac); (eapply N; [|exact Hc]; discriminate) ] ]
    end.

  Lemma check_method_spec m : directed (m_params m) ->
    (no_errors (check_method sc m) <-> accepted_method v m).
  Proof.
    intros Hd. unfold check_method. rewrite no_errors_concat, !Forall_cons_iff, no_errors_flat_map.
    assert (D : Forall (fun p => no_errors (check_parameter sc p)) (m_params m) <-> Forall default_ok (m_params m)).
    { rewrite !Forall_forall. split; intros H p Hp; specialize (H p Hp); now apply check_parameter_spec. }
    rewrite D. clear D. unfold accepted_method.
    pose proof (method_called m nAdd ["add"] eq_refl) as M1.
    pose proof (method_called m nDelete ["delete"] eq_refl) as M2.
    pose proof (method_called m nAsyncDelete ["async"; "delete"] eq_refl) as M3.
    pose proof (method_called m nGet ["get"] eq_refl) as M4.
    pose proof (method_called m nList ["list"] eq_refl) as M5.
    pose proof (method_called m nPost ["post"] eq_refl) as M6.
    pose proof (method_called m nSearch ["search"] eq_refl) as M7.
    pose proof (method_called m nUpdate ["update"] eq_refl) as M8.
    pose proof (method_called m nAsyncUpdate ["async"; "update"] eq_refl) as M9.
    pose proof (check_add_spec m). pose proof (check_delete_spec m). pose proof (check_get_spec m).
    pose proof (check_list_spec m). pose proof (check_post_spec m). pose proof (check_search_spec m Hd).
    pose proof (check_update_spec m).
    unfold is_action, is_add, is_delete, is_async_delete, is_get, is_list_method, is_post, is_search, is_update, is_async_update in *.
    destruct (name_equals (Some (m_name m)) (Some nAdd)); [pick M1|].
    destruct (name_equals (Some (m_name m)) (Some nDelete)); [pick M2|].
    destruct (name_equals (Some (m_name m)) (Some nAsyncDelete)); [pick M3|].
    destruct (name_equals (Some (m_name m)) (Some nGet)); [pick M4|].
    destruct (name_equals (Some (m_name m)) (Some nList)); [pick M5|].
    destruct (name_equals (Some (m_name m)) (Some nPost)); [pick M6|].
    destruct (name_equals (Some (m_name m)) (Some nSearch)); [pick M7|].
    destruct (name_equals (Some (m_name m)) (Some nUpdate)); [pick M8|].
    destruct (name_equals (Some (m_name m)) (Some nAsyncUpdate)); [pick M9|].
    simpl. assert (no_errors []) by apply no_errors_nil. assert (Forall no_errors []) by constructor.
    assert (F : false <> true) by discriminate.
    split; [|tauto]. intros (_ & Hp & _). refine (conj Hp _).
    refine (conj _ (conj _ (conj _ (conj _ (conj _ (conj _ _)))))); tauto.
  Qed.
End Tests.
