(** Proofs about the memory used by the setters of builders and by the slices of lists. *)
From Coq Require Import Ascii String Bool Arith ZArith NArith Lia List.
From Verif Require Import GoStrings GoMap NamesModel NamesSpec ConceptsModel ConceptsSpec ChecksModel GoTimeModel ObjectsModel ObjectsSpec ObjectsProofs ObjectsProofs2
  HeapModel HeapSpec HeapProofs HeapProofs2.
Import ListNotations.
Local Open Scope string_scope.

(** * Builders *)

Lemma builder_holds P m a b : holds_builder P m a b -> holds (fun p => p = a \/ P p) m (RPtr a) (VObject b).
Proof.
  intros (_ & c & N & H1 & H2 & H3 & H4). exists a, c. split; [reflexivity|]. split; [now left|]. split; [exact N|]. repeat (split; [assumption|]).
  revert H4. apply all2_imp, Forall_forall. intros z _ q. apply holds_weaken. auto.
Qed.

Lemma builder_frame (P Q : nat -> Prop) m m' a b : ~ Q a -> nth_error m' a = nth_error m a ->
  (forall p c, P p -> nth_error m p = Some c -> Q p /\ nth_error m' p = Some c) -> holds_builder P m a b -> holds_builder Q m' a b.
Proof.
  intros Qa E F (_ & c & N & H1 & H2 & H3 & H4). split; [exact Qa|]. exists c. rewrite E. repeat (split; [assumption|]).
  revert H4. apply all2_imp, Forall_forall. intros z _ q. now apply holds_frame.
Qed.

Lemma steps_keep_builder fuel v : forall l m m' P a b, perform_all fuel v l m = Done m' -> avoids l (fun p => p = a \/ P p) -> holds_builder P m a b -> holds_builder P m' a b.
Proof.
  induction l as [|s l IH]; intros m m' P a b E A H; cbn [perform_all] in E; [injection E as <-; exact H|].
  destruct (perform fuel v s m) as [m1| |] eqn:E1; try discriminate. apply (IH m1 m' P a b E); [intros s' q I; apply A; now right|].
  apply perform_only in E1. destruct E1 as [L O].
  assert (W : forall p c, p = a \/ P p -> nth_error m p = Some c -> nth_error m1 p = Some c).
  { intros p c Pp N. rewrite O; [exact N| |]; [apply nth_error_Some; congruence|]. intros M. now apply (A s p (or_introl eq_refl) M). }
  assert (H' := H). destruct H' as (Pa & c & N & _). revert H. apply builder_frame; [exact Pa| |].
  - rewrite N. apply W; auto.
  - intros p d Pp Np. split; [exact Pp|]. auto.
Qed.

(** * Build *)

Lemma build_independent v t P fuel a m b : structural t -> object_typed v t b -> holds_builder P m a b -> depth (VObject b) <= fuel ->
  match build_object v t b with
  | None => build_at fuel v t a m = Panics
  | Some p =>
      exists m' r, build_at fuel v t a m = Done (m', r) /\ extends m m' /\ holds (between m m') m' r (VObject p) /\ holds_builder P m' a b /\
        forall fuel' l m'', perform_all fuel' v l m' = Done m'' -> avoids l (between m m') -> holds (between m m') m'' r (VObject p)
  end.
Proof.
  intros K T H D. assert (B := build_at_ok v t _ fuel a m b K T (builder_holds _ _ _ _ H) D). destruct (build_object v t b) as [p|]; [|exact B].
  destruct B as (m' & r & E & Ex & Hp & W). exists m', r. split; [exact E|]. split; [exact Ex|]. split; [exact Hp|]. split; [|exact W].
  assert (H' := H). destruct H' as (Pa & c & N & _). revert H. apply builder_frame; [exact Pa| |].
  - rewrite N. now apply (extends_nth m).
  - intros q d Pq Nq. split; [exact Pq|]. now apply (extends_nth m).
Qed.

(** * Copy *)

Lemma copy_independent v t P Q fuel a r m b o : structural t -> object_typed v t b -> object_typed v t o ->
  holds_builder Q m a b -> ~ P a -> holds P m r (VObject o) -> depth (VObject o) <= fuel ->
  exists m', copy_at fuel v t a r m = Done m' /\
    holds_builder (between m m') m' a (copy_object v t b (Some o)) /\ holds P m' r (VObject o) /\
    (forall fuel' l m'', perform_all fuel' v l m' = Done m'' -> avoids l P -> holds P m'' r (VObject o)) /\
    (forall fuel' l m'', perform_all fuel' v l m' = Done m'' -> avoids l (fun p => p = a \/ between m m' p) ->
       holds_builder (between m m') m'' a (copy_object v t b (Some o))).
Proof.
  intros K Tb To Hb Pa Ho D. destruct Hb as (Qa & c & N & H1 & H2 & H3 & H4).
  assert (La : a < length m) by (apply nth_error_Some; congruence).
  destruct (copy_at_ok v t P fuel a r m c b o K To N) as (m' & E' & O & H); auto.
  - destruct Tb as (C & _). unfold complete in C. rewrite <- C. now apply all2_len in H4.
  - apply Tb.
  - assert (Ho' : holds P m' r (VObject o)).
    { revert Ho. apply holds_frame. intros p d Pp Np. split; [exact Pp|]. destruct O as [_ O]. rewrite O; auto; [apply nth_error_Some; congruence|]. congruence. }
    exists m'. split; [exact E'|]. split; [exact H|]. split; [exact Ho'|].
    split; intros fuel' l m'' Ep A; [now apply (steps_keep fuel' v l m' m'')|now apply (steps_keep_builder fuel' v l m' m'')].
Qed.

(** * Setters *)

Lemma all2_set {A B} (P : A -> B -> Prop) x y : forall m l i, all2 P l m -> P x y -> all2 P (set_nth i x l) (set_nth i y m).
Proof.
  induction m as [|b m IH]; intros [|a l] i H Hx; try contradiction; try discriminate; [destruct i; exact H|].
  destruct H as [H1 H2]. destruct i; cbn; auto.
Qed.

Lemma set_holds (P R : nat -> Prop) m m1 a (c : object_of ref) (b : object) i r x bits : nth_error m a = Some (CObject c) ->
  o_id c = o_id b -> o_href c = o_href b -> all2 (holds P m) (o_fields c) (o_fields b) -> ~ P a ->
  (forall p, P p -> R p) -> ~ R a -> extends m m1 -> holds R m1 r x ->
  holds_builder R (store a (CObject (MkObject bits (o_id c) (o_href c) (set_nth i r (o_fields c)))) m1) a
    (MkObject bits (o_id b) (o_href b) (set_nth i x (o_fields b))).
Proof.
  intros N H2 H3 H4 Pa PR Ra Ex Hx. assert (La : a < length m1) by (apply extends_length in Ex; assert (a < length m) by (apply nth_error_Some; congruence); lia).
  split; [exact Ra|]. eexists. split; [unfold store; now apply set_nth_same|]. cbn [o_bits o_id o_href o_fields].
  split; [reflexivity|]. split; [exact H2|]. split; [exact H3|]. apply all2_set.
  - revert H4. apply all2_imp, Forall_forall. intros y _ q. apply holds_frame. intros p d Pp Np. split; [auto|]. unfold store.
    rewrite set_nth_other; [now apply (extends_nth m)|]. congruence.
  - revert Hx. apply holds_frame. intros p d Rp Nd. split; [exact Rp|]. unfold store. rewrite set_nth_other; [exact Nd|]. congruence.
Qed.

Lemma set_ok v t (P Q : nat -> Prop) a m b i x r : (exists y, nth_error (t_attrs t) i = Some y /\ typed v (a_type y) (a_link y) x) ->
  holds_builder P m a b -> ~ Q a -> holds Q m r x ->
  let m' := call_ref v t a (RefSet i r) m in holds_builder (fun p => P p \/ Q p \/ between m m' p) m' a (apply_call v t b (CallSet i x)).
Proof.
  intros (y & Ny & T) H Qa Hx m'. destruct H as (Pa & c & N & H1 & H2 & H3 & H4).
  assert (La : a < length m) by (apply nth_error_Some; congruence).
  assert (Ra : forall m' : memory, ~ (P a \/ Q a \/ between m m' a)) by (unfold between; intros ? [X|[X|X]]; [auto|auto|lia]).
  assert (Simple : forall bits, holds_builder (fun p => P p \/ Q p \/ between m (store a (CObject (MkObject bits (o_id c) (o_href c) (set_nth i r (o_fields c)))) m) p)
    (store a (CObject (MkObject bits (o_id c) (o_href c) (set_nth i r (o_fields c)))) m) a
    (MkObject bits (o_id b) (o_href b) (set_nth i x (o_fields b)))).
  { intros bits. apply (set_holds P _ m m a c b i r x bits N H2 H3 H4 Pa); auto; [apply extends_refl|]. revert Hx. apply holds_weaken. auto. }
  unfold m', call_ref. rewrite N. cbn [apply_call]. rewrite Ny. unfold type_at.
  destruct (mget (a_type y) (v_types v)) as [ty|] eqn:G; [|exfalso; destruct x; cbn in T; rewrite G in T; exact T].
  destruct (is_list ty) eqn:L.
  - destruct (a_link y) eqn:Ly.
    + rewrite H1. apply Simple.
    + cbn [alloc]. set (values := match r with RPtr p => _ | _ => _ end).
      set (copied := match x with VNil => VSlice [] | _ => x end).
      assert (Hc : exists l, copied = VSlice l /\ all2 (holds Q m) values l).
      { assert (Tx : x = VNil \/ exists l, x = VSlice l).
        { unfold is_list in L. destruct x; cbn in T; rewrite G in T; destruct (t_kind ty); try discriminate; destruct T as [_ T]; destruct (t_element ty); try contradiction; eauto.
          destruct T; discriminate. }
        destruct Tx as [->|[l ->]].
        - cbn in Hx. subst r. exists []. split; reflexivity.
        - destruct Hx as (p & rs & -> & _ & Np & A). exists l. split; [reflexivity|]. unfold values. now rewrite Np. }
      destruct Hc as (l & -> & A). rewrite H1.
      apply (set_holds P _ m (m ++ [CSlice values])%list a c b i _ _ _ N H2 H3 H4 Pa); auto; [now eexists|].
      apply holds_slice_new.
      * right. right. unfold between, store. rewrite set_nth_length, app_length. cbn. lia.
      * revert A. apply all2_imp, Forall_forall. intros z _ q. apply holds_weaken. auto.
  - rewrite H1.
    assert (B : match r with RNil => clear_bit (o_bits b) (bit_mask t i) | _ => set_bit (o_bits b) (bit_mask t i) end =
                match x with VNil => clear_bit (o_bits b) (bit_mask t i) | _ => set_bit (o_bits b) (bit_mask t i) end).
    { destruct x; cbn in Hx; try (subst r; reflexivity); destruct Hx as (p & q & -> & _); reflexivity. }
    rewrite B. apply Simple.
Qed.

(** The values of lists of scalars are copied, so the slice isn't used. *)
Lemma set_scalars v t (P Q : nat -> Prop) a m b i x r y ty e te : nth_error (t_attrs t) i = Some y -> typed v (a_type y) (a_link y) x ->
  mget (a_type y) (v_types v) = Some ty -> t_kind ty = ListType -> a_link y = false -> t_element ty = Some e -> mget e (v_types v) = Some te ->
  In (t_kind te) [ScalarType; EnumType; InterfaceType] ->
  holds_builder P m a b -> holds Q m r x ->
  let m' := call_ref v t a (RefSet i r) m in holds_builder (fun p => P p \/ between m m' p) m' a (apply_call v t b (CallSet i x)).
Proof.
  intros Ny T G K Ly Ee Ge Ke H Hx m'. destruct H as (Pa & c & N & H1 & H2 & H3 & H4).
  assert (Sc : is_scalar te = true) by (unfold is_scalar; cbn in Ke; repeat destruct Ke as [<-|Ke]; auto; contradiction).
  assert (La : a < length m) by (apply nth_error_Some; congruence).
  unfold m', call_ref. rewrite N. cbn [apply_call]. rewrite Ny. unfold type_at. rewrite G.
  replace (is_list ty) with true by (unfold is_list; now rewrite K). rewrite Ly. cbn [alloc]. set (values := match r with RPtr p => _ | _ => _ end).
  set (copied := match x with VNil => VSlice [] | _ => x end).
  assert (Hc : exists l, copied = VSlice l /\ all1 (typed v e false) l /\ all2 (holds Q m) values l).
  { rewrite Ly in T. destruct x as [s| |o|l|h b' s|l]; cbn in T; rewrite G, K, Ee in T; destruct T as [_ T]; try contradiction.
    - cbn in Hx. subst r. exists []. split; [reflexivity|]. split; [exact I|reflexivity].
    - destruct Hx as (p & rs & -> & _ & Np & A). exists l. split; [reflexivity|]. split; [apply T|]. unfold values. now rewrite Np.
    - destruct T; discriminate. }
  destruct Hc as (l & -> & Tl & A). rewrite H1.
  apply (set_holds P _ m (m ++ [CSlice values])%list a c b i _ _ _ N H2 H3 H4 Pa); auto; [unfold between; intros [X|X]; [auto|lia]|now eexists|].
  apply holds_slice_new.
  - right. unfold between, store. rewrite set_nth_length, app_length. cbn. lia.
  - now apply (scalars_hold Q _ v e te m m values l Ge Sc Tl).
Qed.

Lemma call_ok v t (P : nat -> Prop) a m b c rc : holds_builder P m a b -> same_call c rc -> holds_builder P (call_ref v t a rc m) a (apply_call v t b c).
Proof.
  intros H M. destruct H as (Pa & d & N & H1 & H2 & H3 & H4).
  assert (La : a < length m) by (apply nth_error_Some; congruence).
  assert (H4' : forall cell, all2 (holds P (store a cell m)) (o_fields d) (o_fields b)).
  { intros cell. revert H4. apply all2_imp, Forall_forall. intros z Iz q. apply holds_frame. intros p e Pp Np.
    split; [exact Pp|]. unfold store. rewrite set_nth_other; [exact Np|congruence]. }
  unfold call_ref. rewrite N. split; [exact Pa|].
  destruct c, rc; try contradiction; cbn in M; subst; cbn [apply_call];
    (eexists; split; [unfold store; now apply set_nth_same|]; cbn [o_bits o_id o_href o_fields];
     rewrite ?H1, ?H2, ?H3; repeat (split; [reflexivity|]); apply H4').
Qed.

(** * Slices *)

Lemma slice_ok (P : nat -> Prop) m r h b s : holds P m r (VList h b s) -> (s = VNil \/ exists l, s = VSlice l) ->
  exists m' a rs, slice_at r m = (m', RPtr a) /\ a = length m /\ nth_error m' a = Some (CSlice rs) /\ all2 (holds P m') rs (list_slice (Some (MkList h b (match s with VSlice l => Some l | _ => None end)))) /\
    extends m m' /\ (forall fuel v l m'', perform_all fuel v l m' = Done m'' -> avoids l (fun p => P p /\ p <> a) -> holds P m'' r (VList h b s)).
Proof.
  intros H Hs. assert (H0 := H). destruct H as (a & rs & -> & _ & N & A). unfold slice_at. rewrite N.
  assert (W : forall c, forall fuel v l m'', perform_all fuel v l (m ++ [c])%list = Done m'' -> avoids l (fun p => P p /\ p <> length m) ->
    holds P m'' (RPtr a) (VList h b s)).
  { intros c fuel v l m'' E Av. apply (holds_weaken (fun p => P p /\ p <> length m)); [tauto|]. apply (steps_keep fuel v l _ _ _ _ _ E Av).
    apply (holds_extends _ m); [now eexists|]. apply holds_between in H0. revert H0. apply holds_weaken. intros p [Pp Lp]. split; [exact Pp|lia]. }
  destruct Hs as [->|[l ->]].
  - cbn in A. subst rs. exists (m ++ [CSlice []])%list, (length m), []. split; [reflexivity|]. split; [reflexivity|]. split; [apply alloc_nth|].
    split; [reflexivity|]. split; [now eexists|]. apply W.
  - destruct A as (p & rs' & -> & _ & Np & A). rewrite Np. exists (m ++ [CSlice rs'])%list, (length m), rs'. split; [reflexivity|]. split; [reflexivity|].
    split; [apply alloc_nth|]. split; [|split; [now eexists|apply W]]. cbn. now apply all2_alloc.
Qed.

(** * Properties *)

Lemma setters_in_memory v t P a m b : holds_builder P m a b ->
  (forall c rc, same_call c rc -> holds_builder P (call_ref v t a rc m) a (apply_call v t b c)) /\
  (forall Q i x r, valid_call v t (CallSet i x) -> ~ Q a -> holds Q m r x ->
     holds_builder (fun p => P p \/ Q p \/ between m (call_ref v t a (RefSet i r) m) p) (call_ref v t a (RefSet i r) m) a (apply_call v t b (CallSet i x))) /\
  (forall rc R s x, ~ R a -> holds R m s x -> holds R (call_ref v t a rc m) s x).
Proof.
  intros H. split; [intros; now apply call_ok|]. split; [intros; now apply (set_ok v t P Q)|]. intros rc R s x Ra. apply holds_frame. intros p c Rp N.
  split; [exact Rp|]. destruct (call_only v t a rc m) as [_ O]. rewrite O; [exact N|apply nth_error_Some; congruence|congruence].
Qed.

Lemma avoids_imp l (P Q : nat -> Prop) : (forall p, Q p -> P p) -> avoids l P -> avoids l Q.
Proof. intros I A s p Is M Qp. exact (A s p Is M (I p Qp)). Qed.

Lemma variadic_arguments v t P Q a m b i x r y ty e te :
  nth_error (t_attrs t) i = Some y -> typed v (a_type y) (a_link y) x ->
  mget (a_type y) (v_types v) = Some ty -> t_kind ty = ListType -> a_link y = false ->
  t_element ty = Some e -> mget e (v_types v) = Some te -> In (t_kind te) [ScalarType; EnumType; InterfaceType] ->
  holds_builder P m a b -> holds Q m r x ->
  let m' := call_ref v t a (RefSet i r) m in
  holds_builder (fun p => P p \/ between m m' p) m' a (apply_call v t b (CallSet i x)) /\
  forall fuel l m'', perform_all fuel v l m' = Done m'' -> avoids l (fun p => p = a \/ P p \/ between m m' p) ->
    holds_builder (fun p => P p \/ between m m' p) m'' a (apply_call v t b (CallSet i x)).
Proof.
  intros. assert (B : holds_builder (fun p => P p \/ between m m' p) m' a (apply_call v t b (CallSet i x))) by now apply (set_scalars v t P Q a m b i x r y ty e te).
  split; [exact B|]. intros fuel l m'' E A. now apply (steps_keep_builder fuel v l m' m'').
Qed.

(** * The setters of lists *)
Lemma list_stored (P Q : nat -> Prop) m a h b s rs h' b' s' rs' :
  ~ Q a -> P a -> (forall p, Q p -> P p) -> nth_error m a = Some (CList h b rs) -> holds Q m rs s -> holds Q m rs' s' ->
  holds P (store a (CList h' b' rs') m) (RPtr a) (VList h' b' s').
Proof.
  intros Na Pa I N H H'. exists a, rs'. split; [reflexivity|]. split; [exact Pa|].
  assert (L : a < length m) by (apply nth_error_Some; congruence).
  split; [unfold store; apply set_nth_same; exact L|]. revert H'. apply holds_frame. intros p c Qp Np. split; [exact (I p Qp)|].
  unfold store. rewrite set_nth_other; [exact Np|]. intros <-. contradiction.
Qed.

Lemma list_setters (P Q : nat -> Prop) m a h b s rs link href s' rs' :
  ~ Q a -> P a -> (forall p, Q p -> P p) -> nth_error m a = Some (CList h b rs) -> holds Q m rs s -> holds Q m rs' s' ->
  holds P (set_link_at link a m) (RPtr a) (VList h link s) /\ holds P (set_href_at href a m) (RPtr a) (VList href b s) /\
  holds P (set_items_at rs' a m) (RPtr a) (VList h b s') /\
  forall fuel v m', perform fuel v (SetList a link href rs') m = Done m' ->
    holds P m' (RPtr a) (VList href link s') /\ forall R r x, ~ R a -> holds R m r x -> holds R m' r x.
Proof.
  intros Na Pa I N H H'. unfold set_link_at, set_href_at, set_items_at. rewrite N.
  split; [exact (list_stored P Q m a h b s rs h link s rs Na Pa I N H H)|].
  split; [exact (list_stored P Q m a h b s rs href b s rs Na Pa I N H H)|].
  split; [exact (list_stored P Q m a h b s rs h b s' rs' Na Pa I N H H')|].
  intros fuel v m' E. split.
  - cbn [perform] in E. injection E as <-. unfold set_items_at, set_href_at, set_link_at. rewrite N.
    assert (L : a < length m) by (apply nth_error_Some; congruence).
    unfold store. rewrite set_nth_same by exact L. cbn iota beta. rewrite set_nth_same by (now rewrite set_nth_length).
    exists a, rs'. split; [reflexivity|]. split; [exact Pa|].
    split; [apply set_nth_same; now rewrite !set_nth_length|]. revert H'. apply holds_frame. intros p c Qp Np. split; [exact (I p Qp)|].
    rewrite !set_nth_other; [exact Np| | |]; intros <-; contradiction.
  - intros R r x Ra. apply perform_only in E. destruct E as [_ E]. apply holds_frame. intros p c Rp Np. split; [exact Rp|].
    rewrite E; [exact Np| |].
    + apply nth_error_Some. congruence.
    + cbn [modified]. intros F. injection F as ->. contradiction.
Qed.
