(** Proofs about the memory used by copies, setters and slices. *)
From Coq Require Import Ascii String Bool Arith ZArith NArith Lia List.
From Verif Require Import GoStrings GoMap NamesModel NamesSpec ConceptsModel ConceptsSpec ChecksModel GoTimeModel ObjectsModel ObjectsSpec ObjectsProofs ObjectsProofs2
  HeapModel HeapSpec HeapProofs.
Import ListNotations.
Local Open Scope string_scope.

(** * Copy *)

Lemma field_zero_cases v k : field_zero v k = VNil \/ exists s, field_zero v k = VScalar s.
Proof.
  unfold field_zero.
  destruct (is_builtin nBoolean k); eauto. destruct (is_builtin nInteger k); eauto.
  destruct (is_builtin nLong k); eauto. destruct (is_builtin nFloat k); eauto.
  destruct (is_builtin nString k); eauto. destruct (is_builtin nInterface k); eauto.
  destruct (is_builtin nDate k); eauto. destruct (type_at k v) as [t|]; auto. destruct (is_enum t); eauto.
Qed.
Lemma zeros_hold P v m : forall l, all2 (holds P m) (map (fun a => ref_zero v (a_type a)) l) (map (fun a : attribute => field_zero v (a_type a)) l).
Proof.
  induction l as [|a l IH]; [reflexivity|]. cbn [map]. split; [|exact IH]. unfold ref_zero.
  destruct (field_zero_cases v (a_type a)) as [->|[s ->]]; reflexivity.
Qed.
Lemma new_holds (P : nat -> Prop) v t m : P (length m) -> holds P (m ++ [new_ref v t])%list (RPtr (length m)) (VObject (new_builder v t)).
Proof.
  intros p. eexists (length m), _. split; [reflexivity|]. split; [exact p|]. split; [apply alloc_nth|]. cbn [o_bits o_id o_href o_fields new_builder].
  repeat (split; [reflexivity|]). apply zeros_hold.
Qed.

Definition copies_to (v : version) (P : nat -> Prop) (x : value) : Prop := forall k link r m fuel,
  typed v k link x -> holds P m r x -> depth x <= fuel -> produces m (copy_ref fuel v k link r) (Some (copy_value v k link x)).

Lemma copies_one v P e te x r m fuel : copies_to v P x -> mget e (v_types v) = Some te ->
  In (t_kind te) [ScalarType; EnumType; InterfaceType; ClassType; StructType] ->
  typed v e false x -> holds P m r x -> depth x <= fuel -> produces m (copy_one fuel v e r) (Some (copy_item v e x)).
Proof.
  intros B Ge S T H D. unfold copy_one, copy_item. destruct x.
  - assert (H' := H). cbn in H'. subst r. now apply B.
  - cbn in H. subst r. intros m1 _. unfold type_at. rewrite Ge. exists (m1 ++ [new_ref v te])%list, (RPtr (length m1)).
    split; [reflexivity|]. split; [now exists [new_ref v te]|]. now apply new_holds.
  - assert (H' := H). destruct H as (a & b & -> & _). now apply B.
  - destruct (typed_slice _ _ _ _ T) as (_ & t' & e' & te' & G' & K & _). rewrite Ge in G'. injection G' as <-. rewrite K in S. cbn in S. repeat destruct S as [S|S]; discriminate || contradiction.
  - destruct (typed_list _ _ _ _ _ _ T) as (_ & t' & e' & te' & G' & K & _). rewrite Ge in G'. injection G' as <-. rewrite K in S. cbn in S. repeat destruct S as [S|S]; discriminate || contradiction.
  - destruct (typed_map _ _ _ _ T) as (t' & e' & te' & G' & K & _). rewrite Ge in G'. injection G' as <-. rewrite K in S. cbn in S. repeat destruct S as [S|S]; discriminate || contradiction.
Qed.

Lemma sequence_some {A B} (g : A -> B) l : sequence (map (fun a => Some (g a)) l) = Some (map g l).
Proof. induction l as [|a l IH]; [reflexivity|]. cbn. now rewrite IH. Qed.
Lemma sequence_zip {A B C} (g : A -> B -> C) : forall m l, sequence (zip_with (fun a b => Some (g a b)) l m) = Some (zip_with g l m).
Proof. induction m as [|b m IH]; intros [|a l]; try reflexivity. cbn. now rewrite IH. Qed.

Lemma map_combine {A B} (f : B -> B) (l : list (A * B)) : map (fun p => (fst p, f (snd p))) l = combine (map fst l) (map f (map snd l)).
Proof. induction l as [|[a b] l IH]; [reflexivity|]. cbn in *. now rewrite IH. Qed.

Lemma copy_ok v P : forall x, copies_to v P x.
Proof.
  induction x as [s| |o IH|l IH|h b s IHs IHl|l IH] using value_ind2; intros k link r m fuel T H D;
    (destruct fuel as [|fuel]; [cbn in D; lia|]); apply (produces_now P m _ _ _ r H); clear m H; intros m H.
  - destruct (typed_scalar _ _ _ _ T) as (t & G & Sc). destruct (scalar_eq v k link t (VScalar s) G Sc) as [-> _].
    destruct (ref_scalar v k t G fuel link r m Sc) as [_ ->]. exists m, r. split; [reflexivity|]. split; [apply extends_refl|exact H].
  - destruct (typed_nil _ _ _ T) as (t & G & Sc). destruct (nil_eq v k link t G Sc) as [-> _]. cbn in H. subst r.
    destruct (ref_nil v k t G fuel link m Sc) as [_ ->]. exists m, RNil. split; [reflexivity|]. split; [apply extends_refl|reflexivity].
  - destruct (typed_object _ _ _ _ T) as (t & G & K & _ & _ & _ & TF). rewrite (copy_object_eq v k link t o G K).
    destruct H as (a & b & -> & _ & N & H1 & H2 & H3 & H4). destruct (ref_object v k t G fuel link a b m K N) as [_ ->]. unfold copy_fields.
    assert (Z := run_new_ok (zip_with (fun x y => copy_ref fuel v (a_type x) (a_link x) y) (t_attrs t) (o_fields b))
      (zip_with (fun a y => Some (copy_value v (a_type a) (a_link a) y)) (t_attrs t) (o_fields o)) m (built_cell t b)
      (fun fs => VObject (MkObject (o_bits o) (if is_class t then o_id o else "") (if is_class t then o_href o else "") fs))).
    rewrite (sequence_zip (fun a y => copy_value v (a_type a) (a_link a) y)) in Z. apply Z; clear Z.
    + apply (zip_ok P v m _ _ _ _ _ TF H4); intros a' r' x I _ T' H'; rewrite Forall_forall in IH; apply (IH x I); auto; cbn [depth] in D;
      apply (depth_in x (o_fields o)); [lia|exact I].
    + intros m' rs zs L A _; apply holds_object_new; auto.
  - destruct (typed_slice _ _ _ _ T) as (-> & t & e & te & G & K & E & Ge & Ke & Tl). destruct H as (a & rs & -> & _ & N & A).
    rewrite (copy_slice_eq v k t e te l G K E Ge). destruct (ref_slice v k t G e te E Ge fuel a rs m K N) as [_ ->].
    destruct (elem_kinds te Ke) as [Sc|(Sc & St & Se)]; rewrite Sc.
    + exists (m ++ [CSlice rs])%list, (RPtr (length m)). split; [reflexivity|]. split; [now exists [CSlice rs]|].
      apply holds_slice_new; [lia|]. now apply (scalars_hold P _ v e te m m rs l Ge Sc Tl).
    + rewrite St. assert (Z := run_new_ok (map (copy_one fuel v e) rs) (map (fun x => Some (copy_item v e x)) l) m CSlice VSlice).
      rewrite sequence_some in Z. apply Z; clear Z.
      * apply (map_ok P m (typed v e false) _ _ l rs Tl A); intros r' x I T' H'; rewrite Forall_forall in IH; apply (copies_one v P e te x); auto;
        cbn [depth] in D; apply (depth_in x l); [lia|exact I].
      * intros m' rs' zs L A' _; now apply holds_slice_new.
  - destruct (typed_list _ _ _ _ _ _ T) as (-> & t & e & te & G & K & E & Ge & Ke & Tl). destruct H as (a & rs & -> & _ & N & A).
    rewrite (copy_list_eq v k t e te h b s G K E Ge). destruct (ref_list v k t G e te E Ge fuel a h b rs m K N) as [_ ->].
    destruct s as [| | |l| |]; try contradiction.
    + cbn in A. subst rs. exists (m ++ [CList "" false RNil])%list, (RPtr (length m)). split; [reflexivity|]. split; [now eexists|].
      exists (length m), RNil. split; [reflexivity|]. split; [lia|]. split; [apply alloc_nth|reflexivity].
    + destruct A as (p & items & -> & _ & Np & A). rewrite Np.
      assert (Z := run_new_ok (map (copy_one fuel v e) items) (map (fun x => Some (copy_item v e x)) l) m CSlice VSlice).
      specialize (IHl l eq_refl). rewrite sequence_some in Z. destruct Z as (m' & r & Er & Ex & Hz).
      * apply (map_ok P m (typed v e false) _ _ l items Tl A); intros r' x I T' H'; rewrite Forall_forall in IHl; apply (copies_one v P e te x); auto;
            cbn [depth] in D; apply (depth_in x l); [lia|exact I].
      * intros m' rs' zs L A' _; now apply holds_slice_new.
      * rewrite Er. exists (m' ++ [CList "" false r])%list, (RPtr (length m')). split; [reflexivity|]. split; [apply (extends_trans m m' _ Ex); now eexists|].
        exists (length m'), r. split; [reflexivity|]. split; [now apply extends_length|]. split; [apply alloc_nth|].
        apply (holds_extends _ m'); [now eexists|exact Hz].
  - destruct (typed_map _ _ _ _ T) as (t & e & te & G & K & E & Ge & Ke & Tl). destruct H as (a & rs & -> & _ & N & F & A).
    destruct (ref_map v k t G e te E Ge fuel link a rs m K N) as [_ ->].
    assert (A' : all2 (holds P m) (map snd rs) (map snd l)).
    { clear - A. revert A. generalize (map snd rs). induction l as [|p l IH]; intros [|r rs']; cbn; try tauto; try discriminate. intros [H1 H2]. auto. }
    apply all1_snd in Tl. destruct rs as [|q rs].
    { destruct l as [|p l]; [|discriminate]. exists m, RNil. split; [reflexivity|]. split; [apply extends_refl|]. cbn. unfold type_at.
      rewrite G. unfold elem_key. rewrite E, Ge. unfold is_scalar, is_struct, is_list. rewrite K. reflexivity. }
    destruct l as [|p l]; [discriminate|].
    remember (p :: l) as l0 eqn:El. remember (q :: rs) as rs0 eqn:Er.
    rewrite (copy_map_eq v k link t e te l0 G K E Ge) by (subst; discriminate).
    destruct (elem_kinds te Ke) as [Sc|(Sc & St & Se)]; rewrite Sc.
    + exists (m ++ [CMap rs0])%list, (RPtr (length m)). split; [reflexivity|]. split; [now exists [CMap rs0]|].
      exists (length m), rs0. split; [reflexivity|]. split; [lia|]. split; [apply alloc_nth|]. split; [exact F|]. apply (all2_snd (holds _ _)).
      now apply (scalars_hold P _ v e te m _ (map snd rs0) (map snd l0) Ge Sc Tl).
    + rewrite St. rewrite !map_snd, F, map_combine. assert (Z := run_new_ok (map (copy_one fuel v e) (map snd rs0)) (map (fun x => Some (copy_item v e x)) (map snd l0)) m
        (fun rs => CMap (combine (map fst l0) rs)) (fun ys => VMap (combine (map fst l0) ys))).
      rewrite sequence_some in Z. apply Z; clear Z.
      * apply (map_ok P m (typed v e false) _ _ _ _ Tl A'); intros r' x I T' H'; apply Forall_snd in IH; rewrite Forall_forall in IH; apply (copies_one v P e te x); auto;
        cbn [depth] in D; rewrite <- map_map in D; apply (depth_in x (map snd l0)); [lia|exact I].
      * intros m' rs' zs L A2 Lz; apply holds_map_new; auto. rewrite map_length in Lz. rewrite Lz, <- F, !map_length. reflexivity.
Qed.

(** * Assignments *)

Lemma set_nth_length {A} (x : A) : forall l i, length (set_nth i x l) = length l.
Proof. induction l as [|y l IH]; intros [|i]; cbn; auto. Qed.
Lemma set_nth_other {A} (x : A) : forall l i j, i <> j -> nth_error (set_nth i x l) j = nth_error l j.
Proof. induction l as [|y l IH]; intros [|i] [|j] N; cbn; auto; try congruence. Qed.
Lemma set_nth_same {A} (x : A) : forall l i, i < length l -> nth_error (set_nth i x l) i = Some x.
Proof. induction l as [|y l IH]; intros [|i] L; cbn in *; auto; try lia. apply IH. lia. Qed.

(** Everything but the given address is as before, and there may be more memory. *)
Definition only (o : option nat) (m m' : memory) : Prop :=
  length m <= length m' /\ forall a, a < length m -> o <> Some a -> nth_error m' a = nth_error m a.

Lemma only_refl o m : only o m m.
Proof. split; auto. Qed.
Lemma only_extends o m m' : extends m m' -> only o m m'.
Proof.
  intros E. split; [now apply extends_length|]. intros a L _. destruct E as [l ->]. now rewrite nth_error_app1.
Qed.
Lemma only_store a c m : only (Some a) m (store a c m).
Proof. unfold store. split; [now rewrite set_nth_length|]. intros b _ N. apply set_nth_other. congruence. Qed.
Lemma only_trans o a b c : only o a b -> only o b c -> only o a c.
Proof.
  intros [L1 H1] [L2 H2]. split; [lia|]. intros x L N. rewrite H2, H1; auto. lia.
Qed.

(** * What is built and copied is in new memory *)

Definition grows (f : doing) : Prop := forall m m' r, f m = Done (m', r) -> extends m m'.

Lemma run_all_grows : forall l, Forall grows l -> forall m m' rs, run_all l m = Done (m', rs) -> extends m m'.
Proof.
  induction 1 as [|f l Hf Hl IH]; intros m m' rs E; cbn in E; [injection E as <- <-; apply extends_refl|].
  destruct (f m) as [[m1 r]| |] eqn:E1; try discriminate. destruct (run_all l m1) as [[m2 rs2]| |] eqn:E2; try discriminate.
  injection E as <- <-. apply (extends_trans m m1); [now apply (Hf m m1 r)|now apply (IH m1 m2 rs2)].
Qed.
Lemma run_new_grows l f : Forall grows l -> grows (run_new l f).
Proof.
  intros H m m' r E. unfold run_new in E. destruct (run_all l m) as [[m1 rs]| |] eqn:E1; try discriminate. injection E as <- _.
  apply (extends_trans m m1); [now apply (run_all_grows l H m m1 rs)|now eexists].
Qed.
Lemma zip_grows {A B} (f : A -> B -> doing) : (forall a b, grows (f a b)) -> forall m l, Forall grows (zip_with f l m).
Proof. intros H. induction m as [|b m IH]; intros [|a l]; cbn; constructor; auto. Qed.
Lemma map_grows {A} (f : A -> doing) : (forall a, grows (f a)) -> forall l, Forall grows (map f l).
Proof. intros H. induction l; cbn; constructor; auto. Qed.

Lemma ret_grows m m' (r r' : ref) : @Done (memory * ref) (m, r) = Done (m', r') -> extends m m'.
Proof. intros E. injection E as <- <-. apply extends_refl. Qed.
Lemma alloc_grows m m' (c : cell) r' : @Done (memory * ref) (alloc c m) = Done (m', r') -> extends m m'.
Proof. intros E. injection E as <- <-. now exists [c]. Qed.

Lemma build_grows : forall fuel v k link r, grows (build_ref fuel v k link r).
Proof.
  induction fuel as [|fuel IH]; intros v k link r m m' r' E; [discriminate|].
  assert (I1 : forall k r, grows (fun m => match r with RNil => Panics | _ => build_ref fuel v k false r m end)).
  { intros k1 [| |] m1 m2 r2 E1; try discriminate; exact (IH _ _ _ _ _ _ _ E1). }
  cbn [build_ref] in E. destruct (type_at k v) as [t|]; [|now apply ret_grows in E]. destruct (is_scalar t); [now apply ret_grows in E|].
  destruct r as [s| |a]; try now apply ret_grows in E. destruct (is_struct t).
  - destruct (nth_error m a) as [[b| | |]|]; try now apply ret_grows in E. revert E. apply run_new_grows, zip_grows. intros; apply IH.
  - destruct (type_at (elem_key t) v) as [te|]; [|now apply ret_grows in E]. destruct (is_list t).
    + destruct link.
      * destruct (nth_error m a) as [[| |h b s|]|]; try now apply ret_grows in E.
        match type of E with match run_new ?l ?c ?m with _ => _ end = _ => destruct (run_new l c m) as [[m1 r1]| |] eqn:E1; try discriminate end.
        apply (extends_trans m m1); [|now apply alloc_grows in E]. revert E1. apply run_new_grows, map_grows. intros; apply I1.
      * destruct (nth_error m a) as [[|l| |]|]; try now apply ret_grows in E. destruct (is_scalar te); [now apply alloc_grows in E|].
        destruct (is_struct te); [|now apply ret_grows in E]. revert E. apply run_new_grows, map_grows. intros; apply I1.
    + destruct (nth_error m a) as [[| | |l]|]; try now apply ret_grows in E. destruct (is_scalar te); [now apply alloc_grows in E|].
      destruct (is_struct te); [|now apply ret_grows in E]. revert E. apply run_new_grows, map_grows. intros; apply I1.
Qed.

Lemma copy_grows : forall fuel v k link r, grows (copy_ref fuel v k link r).
Proof.
  induction fuel as [|fuel IH]; intros v k link r m m' r' E; [discriminate|].
  cbn [copy_ref] in E. destruct (type_at k v) as [t|]; [|now apply ret_grows in E]. destruct (is_scalar t); [now apply ret_grows in E|].
  destruct r as [s| |a]; try now apply ret_grows in E. destruct (is_struct t).
  - destruct (nth_error m a) as [[b| | |]|]; try now apply ret_grows in E. revert E. apply run_new_grows, zip_grows. intros; apply IH.
  - destruct (type_at (elem_key t) v) as [te|]; [|now apply ret_grows in E]. destruct (is_list t).
    + destruct link.
      * destruct (nth_error m a) as [[| |h b s|]|]; try now apply ret_grows in E. destruct s as [| |p]; try now apply alloc_grows in E.
        destruct (nth_error m p) as [[|l| |]|]; try now apply alloc_grows in E.
        match type of E with match run_new ?l ?c ?m with _ => _ end = _ => destruct (run_new l c m) as [[m1 r1]| |] eqn:E1; try discriminate end.
        apply (extends_trans m m1); [|now apply alloc_grows in E]. revert E1. apply run_new_grows, map_grows. intros [| |] m9 m10 r9 E9; [exact (IH _ _ _ _ _ _ _ E9)|now apply alloc_grows in E9|exact (IH _ _ _ _ _ _ _ E9)].
      * destruct (nth_error m a) as [[|l| |]|]; try now apply ret_grows in E. destruct (is_scalar te); [now apply alloc_grows in E|].
        destruct (is_struct te); [|now apply ret_grows in E]. revert E. apply run_new_grows, map_grows. intros [| |] m9 m10 r9 E9; [exact (IH _ _ _ _ _ _ _ E9)|now apply alloc_grows in E9|exact (IH _ _ _ _ _ _ _ E9)].
    + destruct (nth_error m a) as [[| | |[|q l]]|]; try now apply ret_grows in E. destruct (is_scalar te); [now apply alloc_grows in E|].
      destruct (is_struct te); [|now apply ret_grows in E]. revert E. apply run_new_grows, map_grows. intros [? [| |]] m9 m10 r9 E9; cbn [snd] in E9; [exact (IH _ _ _ _ _ _ _ E9)|now apply alloc_grows in E9|exact (IH _ _ _ _ _ _ _ E9)].
Qed.

(** * Steps *)

Lemma build_at_grows fuel v t a : grows (build_at fuel v t a).
Proof.
  intros m m' r E. unfold build_at in E. destruct (nth_error m a) as [[b| | |]|]; try discriminate. revert E. apply run_new_grows, zip_grows. intros; apply build_grows.
Qed.

Lemma copy_at_only fuel v t a r m m' : copy_at fuel v t a r m = Done m' -> only (Some a) m m'.
Proof.
  unfold copy_at. destruct r as [| |p]; try (intros E; injection E as <-; apply only_refl).
  destruct (nth_error m a) as [[b| | |]|]; try discriminate. destruct (nth_error m p) as [[o| | |]|]; try discriminate.
  match goal with |- match run_all ?l m with _ => _ end = _ -> _ => destruct (run_all l m) as [[m1 fs]| |] eqn:E1; try discriminate end.
  intros E. injection E as <-. apply (only_trans _ m m1); [|apply only_store]. apply only_extends. revert E1. apply run_all_grows.
  apply zip_grows. intros [x prev] y m2 m3 r3 E3. destruct (skipped v (a_type x) (a_link x) y m2); [now apply ret_grows in E3|].
  now apply (copy_grows _ _ _ _ _ _ _ _ E3).
Qed.

Lemma call_only v t a c m : only (Some a) m (call_ref v t a c m).
Proof.
  unfold call_ref. destruct (nth_error m a) as [[b| | |]|]; try apply only_refl. destruct c as [x|s|s|i r]; try apply only_store.
  destruct (nth_error (t_attrs t) i) as [x|]; [|apply only_refl]. destruct (type_at (a_type x) v) as [tx|]; [|apply only_refl].
  destruct (is_list tx); [|apply only_store]. destruct (a_link x); [apply only_store|]. cbn [alloc].
  eapply only_trans; [|apply only_store]. apply only_extends. now eexists.
Qed.

Lemma perform_only fuel v s m m' : perform fuel v s m = Done m' -> only (modified s) m m'.
Proof.
  destruct s as [t a c|t a r|t a|r|a b h r|c|a c]; cbn [perform modified]; intros E.
  - injection E as <-. apply call_only.
  - now apply copy_at_only in E.
  - destruct (build_at fuel v t a m) as [[m1 r]| |] eqn:E1; try discriminate. injection E as <-. apply only_extends. now apply build_at_grows in E1.
  - injection E as <-. apply only_extends. unfold slice_at. destruct r as [| |a]; try now eexists.
    destruct (nth_error m a) as [[| |h b [| |p]|]|]; try now eexists. destruct (nth_error m p) as [[| | |]|]; now eexists.
  - injection E as <-. unfold set_items_at, set_href_at, set_link_at.
    destruct (nth_error m a) as [[| |h1 b1 s1|]|] eqn:N; rewrite ?N; try apply only_refl.
    apply (only_trans _ _ (store a (CList h1 b s1) m)); [apply only_store|].
    set (m1 := store a (CList h1 b s1) m). destruct (nth_error m1 a) as [[| |h2 b2 s2|]|] eqn:N1; rewrite ?N1; try apply only_refl.
    apply (only_trans _ _ (store a (CList h b2 s2) m1)); [apply only_store|]. set (m2 := store a (CList h b2 s2) m1).
    destruct (nth_error m2 a) as [[| |h3 b3 s3|]|]; try apply only_refl. apply only_store.
  - injection E as <-. apply only_extends. now eexists.
  - injection E as <-. apply only_store.
Qed.

Lemma steps_keep fuel v : forall l m m' P r x, perform_all fuel v l m = Done m' -> avoids l P -> holds P m r x -> holds P m' r x.
Proof.
  induction l as [|s l IH]; intros m m' P r x E A H; cbn [perform_all] in E; [injection E as <-; exact H|].
  destruct (perform fuel v s m) as [m1| |] eqn:E1; try discriminate. apply (IH m1 m' P r x E); [intros s' a I; apply A; now right|].
  apply perform_only in E1. destruct E1 as [L O]. revert H. apply holds_frame. intros a c Pa N. split; [exact Pa|]. rewrite O; [exact N| |].
  - apply nth_error_Some. congruence.
  - intros M. apply (A s a (or_introl eq_refl) M Pa).
Qed.

Lemma holds_between P m r x : holds P m r x -> holds (fun a => P a /\ a < length m) m r x.
Proof. apply holds_frame. intros a c Pa N. split; [|exact N]. split; [exact Pa|]. apply nth_error_Some. congruence. Qed.

(** * Build *)

Lemma build_at_ok v t P fuel a m b : structural t -> object_typed v t b -> holds P m (RPtr a) (VObject b) -> depth (VObject b) <= fuel ->
  match build_object v t b with
  | None => build_at fuel v t a m = Panics
  | Some p =>
      exists m' r, build_at fuel v t a m = Done (m', r) /\ extends m m' /\ holds (between m m') m' r (VObject p) /\
        forall fuel' l m'', perform_all fuel' v l m' = Done m'' -> avoids l (between m m') -> holds (between m m') m'' r (VObject p)
  end.
Proof.
  intros K (_ & _ & _ & TF) H D. destruct H as (a' & c & E & _ & N & H1 & H2 & H3 & H4). injection E as <-. unfold build_at, build_object. rewrite N.
  assert (Z := run_new_ok (zip_with (fun x y => build_ref fuel v (a_type x) (a_link x) y) (t_attrs t) (o_fields c))
      (zip_with (fun a y => build_value v (a_type a) (a_link a) y) (t_attrs t) (o_fields b)) m (built_cell t c)
      (fun fs => VObject (MkObject (o_bits b) (if is_class t then o_id b else "") (if is_class t then o_href b else "") fs))).
  assert (F2 : Forall2 (produces m) (zip_with (fun x y => build_ref fuel v (a_type x) (a_link x) y) (t_attrs t) (o_fields c))
      (zip_with (fun a y => build_value v (a_type a) (a_link a) y) (t_attrs t) (o_fields b))).
  { apply (zip_ok P v m _ _ _ _ _ TF H4); intros a' r' x I _ T' H'. apply (build_ok v P x); auto; cbn [depth] in D.
    apply (depth_in x (o_fields b)); [lia|exact I]. }
  specialize (Z F2). clear F2. change (fun fs => CObject (MkObject (o_bits c) (if is_class t then o_id c else "") (if is_class t then o_href c else "") fs)) with (built_cell t c).
  destruct (sequence _) as [fs|]; [|apply Z; intros m' rs zs L A _; apply holds_object_new; auto].
  destruct Z as (m' & r & -> & Ex & Hz); [intros m' rs zs L A _; apply holds_object_new; auto|].
  exists m', r. split; [reflexivity|]. split; [exact Ex|]. apply holds_between in Hz. change (holds (between m m') m' r (VObject (MkObject (o_bits b) (if is_class t then o_id b else "") (if is_class t then o_href b else "") fs))) in Hz.
  split; [exact Hz|]. intros fuel' l m'' E A. now apply (steps_keep fuel' v l m' m'').
Qed.

(** * Copy *)

Lemma not_skipped (P : nat -> Prop) v k link r m x : typed v k link x -> holds P m r x ->
  skipped v k link r m = false /\ not_copied v k link x = false.
Proof.
  intros T H. unfold skipped, not_copied, type_at. destruct (mget k (v_types v)) as [t|] eqn:G; [|auto].
  destruct (mget (elem_key t) (v_types v)) as [te|] eqn:Ge; [|auto].
  destruct (is_list t || is_map t) eqn:L.
  - assert (In (t_kind te) [ScalarType; EnumType; InterfaceType; ClassType; StructType]) as Ke.
    { assert (plain v t) as (e & te' & E & Ge' & Ke).
      { unfold is_list, is_map in L. destruct x; cbn in T; rewrite G in T; destruct (t_kind t); try discriminate; tauto. }
      unfold elem_key in Ge. rewrite E, Ge' in Ge. injection Ge as <-. exact Ke. }
    destruct (elem_kinds te Ke) as [->|(_ & -> & _)]; cbn [negb]; rewrite ?andb_false_r; auto.
  - apply orb_false_iff in L. destruct L as [-> ->]. auto.
Qed.

Lemma copy_at_ok v t P fuel a r m c b o : structural t -> object_typed v t o -> nth_error m a = Some (CObject c) -> length (o_fields c) = length (t_attrs t) ->
  o_id c = o_id b -> o_href c = o_href b -> complete t b ->
  holds P m r (VObject o) -> depth (VObject o) <= fuel ->
  exists m', copy_at fuel v t a r m = Done m' /\ only (Some a) m m' /\
    holds_builder (between m m') m' a (copy_object v t b (Some o)).
Proof.
  intros K (Cm & _ & _ & TF) Na Lc I1 I2 Cb H D. destruct H as (p & d & -> & _ & N & H1 & H2 & H3 & H4). unfold copy_at. rewrite Na, N.
  assert (F2 : Forall2 (produces m)
      (zip_with (fun xp y m => let '(x, prev) := xp in
                    if skipped v (a_type x) (a_link x) y m then Done (m, prev) else copy_ref fuel v (a_type x) (a_link x) y m)
                  (combine (t_attrs t) (o_fields c)) (o_fields d))
      (zip_with (fun a y => Some (copy_value v (a_type a) (a_link a) y)) (t_attrs t) (o_fields o))).
  { cbn [depth] in D. apply Nat.lt_le_incl in D. clear N H1 H2 H3 Cm I1 I2 Cb Na.
    revert Lc TF H4 D. generalize (o_fields c) (o_fields d) (t_attrs t). induction (o_fields o) as [|x xs IH]; intros cs ds at' Lc TF H4 D.
    - cbn in TF, H4. subst. constructor.
    - destruct at' as [|x' at']; [contradiction|]. destruct ds as [|d' ds]; [contradiction|]. destruct cs as [|c' cs]; [discriminate|].
      destruct TF as [T1 T2]. destruct H4 as [G1 G2]. cbn [combine zip_with]. constructor.
      + intros m1 E1. assert (G1' := holds_extends P m m1 d' x E1 G1). destruct (not_skipped P v _ _ d' m1 x T1 G1') as [-> _].
        apply (copy_ok v P x (a_type x') (a_link x') d' m1 fuel T1 G1'); [|apply extends_refl]. cbn in D. lia.
      + apply IH; auto. cbn in D. unfold list_max. lia. }
  assert (Z := run_all_ok _ _ m F2). rewrite (sequence_zip (fun a y => copy_value v (a_type a) (a_link a) y)) in Z.
  destruct Z as (m1 & rs & -> & Ex & A). eexists. split; [reflexivity|].
  assert (La : a < length m) by (apply nth_error_Some; congruence). assert (Lm := extends_length _ _ Ex).
  assert (Le : length (store a (CObject (MkObject (o_bits d) (if is_class t then o_id d else o_id c) (if is_class t then o_href d else o_href c) rs)) m1) = length m1) by apply set_nth_length.
  split; [apply (only_trans _ m m1); [now apply only_extends|apply only_store]|].
  split; [unfold between; lia|]. eexists. split; [unfold store; apply set_nth_same; lia|]. cbn [o_bits o_id o_href o_fields copy_object].
  rewrite H1, H2, H3, I1, I2. repeat (split; [reflexivity|]).
  replace (zip_with _ (combine (t_attrs t) (o_fields b)) (o_fields o)) with (zip_with (fun a y => copy_value v (a_type a) (a_link a) y) (t_attrs t) (o_fields o)).
  - revert A. apply all2_imp, Forall_forall. intros x _ r. apply holds_frame. intros q cell Lq Nq.
    assert (Lq2 : q < length m1) by (apply nth_error_Some; congruence). split.
    + unfold between. rewrite H1, H2, H3, I1, I2 in Le. rewrite Le. lia.
    + unfold store. rewrite set_nth_other; [exact Nq|lia].
  - clear - TF H4 Cb. unfold complete in Cb. revert Cb TF H4. generalize (o_fields b) (o_fields d) (t_attrs t). induction (o_fields o) as [|x xs IH]; intros bs ds at' Lb TF H4; [reflexivity|].
    destruct at' as [|x' at']; [contradiction|]. destruct bs as [|b' bs]; [discriminate|]. destruct ds as [|d' ds]; [contradiction|].
    destruct TF as [T1 T2]. destruct H4 as [G1 G2]. cbn [combine zip_with]. destruct (not_skipped P v _ _ d' m x T1 G1) as [_ ->]. f_equal. apply (IH bs ds at'); auto.
Qed.
