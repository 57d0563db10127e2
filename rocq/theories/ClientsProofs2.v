(** Proofs about the tree of paths. *)
From Coq Require Import Ascii String Bool Arith ZArith NArith Lia Permutation List.
From Verif Require Import GoStrings GoStringsProofs GoMap GoMapProofs NamesModel ConceptsModel ConceptsSpec ReporterModel ReaderModel ReaderSpec ReaderProofs ReaderProofs6 ReaderProofs7
  ReaderProofs10 BindingModel BindingSpec BindingProofs GoNamesModel GoNamesSpec ChecksModel ChecksSpec LoopsProofs PathsModel PathsProofs OpenapiSpec OpenapiProofs4 OpenapiProofs5 OpenapiProofs6 ClientsModel ClientsSpec ClientsProofs.
Import ListNotations.
Local Open Scope string_scope.

(** * Folds that fill a map *)

Section Fold.
  Context {A : Type} (f : A -> outcome branch) (g : A -> string).
  Definition fill_map (start : outcome (list (string * branch))) (l : list A) : outcome (list (string * branch)) :=
    fold_left (fun b a => match b with
                          | Done b => match f a with Done x => Done (mset (g a) x b) | Panics => Panics | OutOfFuel => OutOfFuel end
                          | other => other
                          end) l start.

  Lemma fill_stuck l : fill_map Panics l = Panics /\ fill_map OutOfFuel l = OutOfFuel.
  Proof. unfold fill_map. induction l as [|a l IH]; cbn [fold_left]; auto. Qed.

  Lemma fill_map_cons start a l b : fill_map (Done start) (a :: l) = Done b ->
    exists x, f a = Done x /\ fill_map (Done (mset (g a) x start)) l = Done b.
  Proof.
    unfold fill_map. cbn [fold_left]. destruct (f a) as [x| |]; intros E.
    - eauto.
    - change (fill_map Panics l = Done b) in E. rewrite (proj1 (fill_stuck l)) in E. discriminate.
    - change (fill_map OutOfFuel l = Done b) in E. rewrite (proj2 (fill_stuck l)) in E. discriminate.
  Qed.

  Lemma fill_sound l : forall start b, fill_map (Done start) l = Done b -> forall k x, mget k b = Some x ->
    mget k start = Some x \/ exists a, In a l /\ k = g a /\ f a = Done x.
  Proof.
    induction l as [|a l IH]; intros start b E k x G.
    - injection E as <-. auto.
    - apply fill_map_cons in E as (y & F & E). destruct (IH _ _ E k x G) as [M|(a' & I & K & F')].
      + destruct (string_dec k (g a)) as [->|N].
        * rewrite mget_mset_same in M. injection M as <-. right. exists a. split; [now left|auto].
        * rewrite mget_mset_other in M by assumption. auto.
      + right. exists a'. split; [now right|auto].
  Qed.

  Lemma fill_all l : forall start b, fill_map (Done start) l = Done b -> forall a, In a l -> exists x, f a = Done x.
  Proof.
    induction l as [|a l IH]; intros start b E a' I; [destruct I|]. apply fill_map_cons in E as (y & F & E). destruct I as [<-|I]; eauto.
  Qed.

  Lemma fill_keeps l : forall start b, fill_map (Done start) l = Done b -> forall k, mget k start <> None -> mget k b <> None.
  Proof.
    induction l as [|a l IH]; intros start b E k G.
    - injection E as <-. assumption.
    - apply fill_map_cons in E as (y & F & E). apply (IH _ _ E). destruct (string_dec k (g a)) as [->|N].
      + rewrite mget_mset_same. discriminate.
      + rewrite mget_mset_other; assumption.
  Qed.

  Lemma fill_other l : forall start b, fill_map (Done start) l = Done b -> forall k, ~ In k (map g l) -> mget k b = mget k start.
  Proof.
    induction l as [|a l IH]; intros start b E k N.
    - injection E as <-. reflexivity.
    - apply fill_map_cons in E as (y & F & E). rewrite (IH _ _ E) by (intros I; apply N; now right). apply mget_mset_other.
      intros ->. apply N. now left.
  Qed.

  Lemma fill_complete l : NoDup (map g l) -> forall start b, fill_map (Done start) l = Done b -> forall a, In a l -> exists x, f a = Done x /\ mget (g a) b = Some x.
  Proof.
    induction l as [|a l IH]; intros ND start b E a' I; [destruct I|]. cbn [map] in ND. inversion ND as [|? ? N1 N2]; subst.
    apply fill_map_cons in E as (y & F & E). destruct I as [<-|I].
    - exists y. split; [assumption|]. rewrite (fill_other _ _ _ E) by assumption. apply mget_mset_same.
    - eapply IH; eauto.
  Qed.

  Lemma fill_done l : (forall a, In a l -> exists x, f a = Done x) -> forall start, exists b, fill_map (Done start) l = Done b.
  Proof.
    induction l as [|a l IH]; intros H start.
    - exists start. reflexivity.
    - destruct (H a (or_introl eq_refl)) as (x & X). destruct (IH (fun a' I => H a' (or_intror I)) (mset (g a) x start)) as (b & B).
      exists b. unfold fill_map in *. cbn [fold_left]. now rewrite X.
  Qed.
End Fold.

Lemma actions_sound l : forall start k x, mget k (fold_left (fun b m => mset (method_segment m) Nothing b) l start) = Some x ->
  mget k start = Some x \/ (x = Nothing /\ exists m, In m l /\ k = method_segment m).
Proof.
  induction l as [|m l IH]; intros start k x E; cbn [fold_left] in E; [auto|]. destruct (IH _ _ _ E) as [M|(-> & m' & I & ->)].
  - destruct (string_dec k (method_segment m)) as [->|N].
    + rewrite mget_mset_same in M. injection M as <-. right. split; [reflexivity|]. exists m. split; [now left|reflexivity].
    + rewrite mget_mset_other in M by assumption. auto.
  - right. split; [reflexivity|]. exists m'. split; [now right|reflexivity].
Qed.

Lemma actions_complete l : forall start k, (In k (map method_segment l) \/ mget k start <> None) ->
  mget k (fold_left (fun b m => mset (method_segment m) Nothing b) l start) <> None.
Proof.
  induction l as [|m l IH]; intros start k H; cbn [fold_left].
  - destruct H as [[]|H]. assumption.
  - apply IH. destruct (string_dec k (method_segment m)) as [->|N].
    + right. rewrite mget_mset_same. discriminate.
    + rewrite mget_mset_other by assumption. destruct H as [[H|H]|H]; [congruence| |]; auto.
Qed.

Section Tree.
  Context (v : version).

  Lemma resource_branch_done fuel k b : resource_branch fuel v k = Done b -> exists n key r, fuel = S n /\ k = Some key /\ mget key (v_resources v) = Some r /\
    ((b = Nothing /\ r_locators r = [] /\ filter is_action (r_methods r) = []) \/
     exists l, b = Branch l /\ ~ (r_locators r = [] /\ filter is_action (r_methods r) = []) /\ fill_map (fun l => resource_branch n v (l_target l)) locator_label
       (Done (fold_left (fun b m => mset (method_segment m) Nothing b) (filter is_action (r_methods r)) [])) (r_locators r) = Done l).
  Proof.
    destruct fuel as [|n]; [discriminate|]. cbn [resource_branch]. destruct k as [k|]; [|discriminate]. destruct (mget k (v_resources v)) as [r|] eqn:R; [|discriminate].
    cbv zeta. fold (fill_map (fun l => resource_branch n v (l_target l)) locator_label
       (Done (fold_left (fun b m => mset (method_segment m) Nothing b) (filter is_action (r_methods r)) [])) (r_locators r)).
    destruct (Nat.eqb (length (r_locators r)) 0 && Nat.eqb (length (filter is_action (r_methods r))) 0) eqn:Z.
    - intros [= <-]. apply andb_true_iff in Z as [Z1 Z2]. apply Nat.eqb_eq in Z1, Z2. exists n, k, r. repeat split; auto. left. split; [reflexivity|].
      split; now apply length_zero_iff_nil.
    - destruct (fill_map _ _ _ _) as [l| |] eqn:F; try discriminate. intros [= <-]. exists n, k, r. repeat split; auto. right. exists l. split; [reflexivity|]. split; [|assumption].
      intros [Z1 Z2]. rewrite Z1, Z2 in Z. discriminate.
  Qed.

  (** Everything in the tree corresponds to a path or to an action. *)
  Lemma branch_sound fuel : forall k b ks x, resource_branch fuel v (Some k) = Done b -> node b ks x ->
    exists path k' r, walk v k path k' /\ mget k' (v_resources v) = Some r /\
      (ks = map label path \/ exists a, In a (r_methods r) /\ action a /\ ks = (map label path ++ [method_segment a])%list).
  Proof.
    induction fuel as [|fuel IH]; intros k b ks x E N; [discriminate|]. apply resource_branch_done in E as (n & key & r & [= <-] & [= <-] & R & B).
    inversion N as [|l k1 y ks' z M N']; subst; clear N.
    - exists [], k, r. split; [constructor|]. split; [assumption|]. left. reflexivity.
    - destruct B as [(B & _)|(l' & [= <-] & _ & F)]; [discriminate|]. destruct (fill_sound _ _ _ _ _ F _ _ M) as [M'|(lo & I & -> & F')].
      + apply actions_sound in M' as [M'|(-> & a & I & ->)]; [discriminate|]. inversion N'; subst. apply filter_In in I as [I A].
        exists [], k, r. split; [constructor|]. split; [assumption|]. right. exists a. split; [assumption|]. split; [now apply is_action_spec|reflexivity].
      + pose proof F' as F''. apply resource_branch_done in F'' as (n' & k' & r' & _ & T & R' & _). rewrite T in F'.
        destruct (IH _ _ _ _ F' N') as (path & k2 & r2 & W & R2 & H). exists (lo :: path), k2, r2. split.
        { apply walk_cons with k'; [|assumption]. exists r. auto. }
        split; [assumption|]. cbn [map app]. change (locator_label lo) with (label lo). destruct H as [->|(a & Ia & Aa & ->)]; [left; reflexivity|right; exists a; auto].
  Qed.

  (** Everything is in the tree if the labels are different. *)
  Lemma branch_complete fuel : distinct_labels v -> forall p k b path k' r, walk v "root" p k -> resource_branch fuel v (Some k) = Done b -> walk v k path k' ->
    mget k' (v_resources v) = Some r ->
    exists x, node b (map label path) x /\ (x = Nothing <-> r_locators r = [] /\ forall a, In a (r_methods r) -> ~ action a) /\
      forall a, In a (r_methods r) -> action a -> exists y, node b (map label path ++ [method_segment a])%list y.
  Proof.
    intros D. induction fuel as [|fuel IH]; intros p k b path k' r WP E W R; [discriminate|].
    apply resource_branch_done in E as (n & key & r0 & [= <-] & [= <-] & R0 & B). inversion W as [|k1 lo k2 ls k3 F W']; subst.
    - assert (r0 = r) as -> by congruence. exists b. split; [constructor|].
      assert (NA : filter is_action (r_methods r) = [] <-> forall a, In a (r_methods r) -> ~ action a).
      { split.
        - intros Z a I A. apply is_action_spec in A. assert (In a (filter is_action (r_methods r))) as J by now apply filter_In. rewrite Z in J. destruct J.
        - intros H. destruct (filter is_action (r_methods r)) as [|a l] eqn:Z; [reflexivity|]. assert (In a (filter is_action (r_methods r))) as J by (rewrite Z; now left).
          apply filter_In in J as [J A]. exfalso. apply (H a J). now apply is_action_spec. }
      destruct B as [(-> & L & A)|(l & -> & NZ & FM)].
      + split; [split; [intros _; split; [assumption|now apply NA]|reflexivity]|]. intros a I A'. exfalso. exact (proj1 NA A a I A').
      + split.
        * split; [discriminate|]. intros [Z H]. exfalso. apply NZ. split; [assumption|now apply NA].
        * intros a I A. apply is_action_spec in A. assert (G : mget (method_segment a) l <> None).
          { apply (fill_keeps _ _ _ _ _ FM). apply actions_complete. left. apply in_map. now apply filter_In. }
          destruct (mget (method_segment a) l) as [y|] eqn:Y; [|congruence]. exists y. cbn [map app]. apply node_inside with y; [assumption|constructor].
    - destruct F as (r1 & R1 & IL & T). assert (r1 = r0) as -> by congruence. destruct B as [(-> & L & A)|(l & -> & NZ & FM)]; [rewrite L in IL; destruct IL|].
      destruct (fill_complete _ _ _ (D p r0 (ex_intro _ k (conj WP R0))) _ _ FM lo IL) as (x & X & M). rewrite T in X.
      destruct (IH (p ++ [lo])%list k2 x ls k' r) as (y & N & Z & H); auto.
      { eapply walk_app; [exact WP|]. apply walk_cons with k2; [|constructor]. exists r0. auto. }
      exists y. cbn [map]. split; [apply node_inside with x; assumption|]. split; [assumption|]. intros a I A. destruct (H a I A) as (z & Hz). exists z.
      cbn [app]. apply node_inside with x; assumption.
  Qed.

  (** The generation ends if there are no loops. *)
  Lemma branch_done : ~ has_dead_end v -> targets_exist v -> ~ has_loop v -> forall fuel p k r, walk v "root" p k -> mget k (v_resources v) = Some r ->
    (length (v_resources v) < length p + fuel)%nat -> exists b, resource_branch fuel v (Some k) = Done b.
  Proof.
    intros DE TE NL. induction fuel as [|fuel IH]; intros p k r W R L.
    - exfalso. apply NL. apply (long_walk_loops v p k W). lia.
    - cbn [resource_branch]. rewrite R. cbv zeta. destruct (Nat.eqb (length (r_locators r)) 0 && Nat.eqb (length (filter is_action (r_methods r))) 0); [eauto|].
      destruct (fill_done (fun l => resource_branch fuel v (l_target l)) locator_label (r_locators r)) with
        (start := fold_left (fun b m => mset (method_segment m) Nothing b) (filter is_action (r_methods r)) []) as (b & B).
      + intros lo I. destruct (l_target lo) as [k'|] eqn:T.
        * destruct (TE k r lo k' R I T) as (r' & R'). apply (IH (p ++ [lo])%list k' r'); [|assumption|rewrite app_length; cbn [length]; lia].
          eapply walk_app; [exact W|]. apply walk_cons with k'; [|constructor]. exists r. auto.
        * exfalso. apply DE. exists k, r, lo. split; [now exists p|auto].
      + unfold fill_map in B. rewrite B. eauto.
  Qed.
End Tree.

(** * All the versions *)

Lemma root_target v : match root v with Some _ => Some "root" | None => None end = Some "root" <-> exists r, mget "root" (v_resources v) = Some r.
Proof. unfold root. change (name_key nRoot) with "root". destruct (mget "root" (v_resources v)); split; eauto; try discriminate. intros (? & [=]). Qed.

Lemma service_branch_fill fuel s : service_branch fuel s =
  fill_map (fun v => resource_branch fuel v (match root v with Some _ => Some "root" | None => None end)) version_segment (Done []) (versions s).
Proof. reflexivity. Qed.

Definition service_node (fuel : nat) (s : service) : outcome branch :=
  match service_branch fuel s with Done x => Done (Branch x) | Panics => Panics | OutOfFuel => OutOfFuel end.

Lemma path_tree_fill fuel m : path_tree fuel m =
  match fill_map (service_node fuel) service_segment (Done []) (services m) with
  | Done b => Done (Branch [("api", Branch b)]) | Panics => Panics | OutOfFuel => OutOfFuel end.
Proof.
  unfold path_tree, fill_map, service_node.
  assert (H : forall l st,
    fold_left (fun b s => match b with
      | Done b => match service_branch fuel s with Done x => Done (mset (service_segment s) (Branch x) b) | Panics => Panics | OutOfFuel => OutOfFuel end
      | other => other end) l st =
    fold_left (fun b a => match b with
      | Done b0 => match match service_branch fuel a with Done x => Done (Branch x) | Panics => Panics | OutOfFuel => OutOfFuel end with
         Done x => Done (mset (service_segment a) x b0) | Panics => Panics | OutOfFuel => OutOfFuel end
      | other => other end) l st).
  { induction l as [|s l IH]; intros st; cbn [fold_left]; [reflexivity|]. rewrite IH. destruct st; [|reflexivity|reflexivity]. now destruct (service_branch fuel s). }
  now rewrite H.
Qed.

Lemma node_single k b ks x : node (Branch [(k, b)]) ks x -> ks = [] \/ exists ks', ks = k :: ks' /\ node b ks' x.
Proof.
  intros N. inversion N as [|l k1 y ks' z M N']; subst; [auto|]. right. cbn [mget] in M. destruct (String.eqb_spec k1 k) as [->|]; [|discriminate].
  injection M as <-. eauto.
Qed.

Lemma tree_sound fuel m t ks x : path_tree fuel m = Done t -> node t ks x ->
  ks = [] \/ ks = ["api"] \/ (exists s, In s (services m) /\ ks = ["api"; service_segment s]) \/
  exists s v path r, In s (services m) /\ In v (versions s) /\ leads v path r /\
    (ks = labels s v path \/ exists a, In a (r_methods r) /\ action a /\ ks = (labels s v path ++ [method_segment a])%list).
Proof.
  rewrite path_tree_fill. destruct (fill_map _ _ _ _) as [b| |] eqn:F; intros [= <-] N. apply node_single in N as [->|(ks1 & -> & N)]; [auto|].
  inversion N as [|l k1 y ks2 z M N']; subst; [auto|]. destruct (fill_sound _ _ _ _ _ F _ _ M) as [M'|(s & IS & -> & F')]; [discriminate|].
  unfold service_node in F'. rewrite service_branch_fill in F'. destruct (fill_map (fun v => _) _ _ _) as [b'| |] eqn:F2; [|discriminate|discriminate]. injection F' as <-.
  inversion N' as [|l k1 y ks3 z M2 N2]; subst; [right; right; left; eauto|]. destruct (fill_sound _ _ _ _ _ F2 _ _ M2) as [M'|(v & IV & -> & F3)]; [discriminate|].
  right; right; right. pose proof F3 as F4. apply resource_branch_done in F4 as (n & k & r & _ & T & _). rewrite T in F3.
  assert (k = "root") as -> by (destruct (root v); congruence).
  destruct (branch_sound v _ _ _ _ _ F3 N2) as (path & k' & r' & W & R' & H). exists s, v, path, r'. split; [assumption|]. split; [assumption|]. split; [exists k'; auto|].
  destruct H as [->|(a & I & A & ->)]; [left; reflexivity|right; exists a; auto].
Qed.

Lemma tree_complete fuel m t s v path r : path_tree fuel m = Done t -> NoDup (map service_segment (services m)) -> NoDup (map version_segment (versions s)) ->
  distinct_labels v -> In s (services m) -> In v (versions s) -> leads v path r ->
  exists x, node t (labels s v path) x /\ (x = Nothing <-> r_locators r = [] /\ forall a, In a (r_methods r) -> ~ action a) /\
    forall a, In a (r_methods r) -> action a -> exists y, node t (labels s v path ++ [method_segment a])%list y.
Proof.
  intros E N1 N2 D IS IV (k & W & R). rewrite path_tree_fill in E. destruct (fill_map _ _ _ _) as [b| |] eqn:F; [|discriminate|discriminate]. injection E as <-.
  destruct (fill_complete _ _ _ N1 _ _ F s IS) as (x & X & M). unfold service_node in X. rewrite service_branch_fill in X.
  destruct (fill_map (fun v => _) _ _ _) as [b'| |] eqn:F2; [|discriminate|discriminate]. injection X as <-.
  destruct (fill_complete _ _ _ N2 _ _ F2 v IV) as (y & Y & M2). pose proof Y as Y'. apply resource_branch_done in Y' as (n & k0 & r0 & _ & T & _). rewrite T in Y.
  assert (k0 = "root") as -> by (destruct (root v); congruence).
  destruct (branch_complete v fuel D [] "root" y path k r (walk_nil _ _) Y W R) as (z & Nz & Z & A).
  assert (P : forall ks z, node y ks z -> node (Branch [("api", Branch b)]) ("api" :: service_segment s :: version_segment v :: ks) z).
  { intros ks z' H. apply node_inside with (Branch b); [reflexivity|]. apply node_inside with (Branch b'); [assumption|]. apply node_inside with y; assumption. }
  exists z. split; [apply P, Nz|]. split; [assumption|]. intros a I Aa. destruct (A a I Aa) as (w & Hw). exists w. apply P, Hw.
Qed.

Lemma tree_generated fuel m : (forall s v, In s (services m) -> In v (versions s) -> (exists r, root v = Some r) /\ ~ has_dead_end v /\ targets_exist v /\ ~ has_loop v /\
    (length (v_resources v) < fuel)%nat) -> exists t, path_tree fuel m = Done t.
Proof.
  intros H. rewrite path_tree_fill. destruct (fill_done (service_node fuel) service_segment (services m)) with (start := @nil (string * branch)) as (b & ->); [|eauto].
  intros s IS. unfold service_node. rewrite service_branch_fill.
  destruct (fill_done (fun v => resource_branch fuel v (match root v with Some _ => Some "root" | None => None end)) version_segment (versions s)) with (start := @nil (string * branch))
    as (b & ->); [|eauto].
  intros v IV. destruct (H s v IS IV) as ((r & R) & DE & TE & NL & L). rewrite R. apply (branch_done v DE TE NL fuel [] "root" r); [constructor|exact R|exact L].
Qed.

Lemma list_bound {A} (l : list A) (f : A -> nat) : exists n, forall a, In a l -> (f a < n)%nat.
Proof.
  induction l as [|a l (n & IH)]; [exists 0; intros a []|]. exists (S (n + f a)). intros b [<-|I]; [lia|]. specialize (IH b I). lia.
Qed.

Lemma returned_tree inputs rs0 m rs : read inputs rs0 = Done (ROk m, rs) -> exists n, forall fuel, (n <= fuel)%nat -> exists t, path_tree fuel m = Done t.
Proof.
  intros E. destruct (returned_indexed _ _ _ _ E) as [I1 I2].
  destruct (list_bound (flat_map versions (services m)) (fun v => length (v_resources v))) as (n & N). exists n. intros fuel L. apply tree_generated.
  intros s v IS IV. assert (Hs : in_model m s) by now apply services_in. assert (Hv : in_service s v) by (apply versions_in; [now apply I2|assumption]).
  destruct (returned_no_loops _ _ _ _ _ _ E Hs Hv) as ((r & R) & DE & TE & NL). repeat split; eauto.
  assert (X : (length (v_resources v) < n)%nat) by (apply N, in_flat_map; eauto). lia.
Qed.
