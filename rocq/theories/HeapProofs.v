(** Proofs about the memory used by objects, builders and lists. *)
From Coq Require Import Ascii String Bool Arith ZArith NArith Lia List.
From Verif Require Import GoStrings GoMap NamesModel NamesSpec ConceptsModel ConceptsSpec ChecksModel GoTimeModel ObjectsModel ObjectsSpec ObjectsProofs ObjectsProofs2
  HeapModel HeapSpec.
Import ListNotations.
Local Open Scope string_scope.

(** * Lists *)

Lemma all2_imp {A B} (P Q : A -> B -> Prop) : forall l m, Forall (fun b => forall a, P a b -> Q a b) m -> all2 P l m -> all2 Q l m.
Proof.
  intros l m H. revert l. induction H as [|b m Hb H IH]; intros l A2; [exact A2|]. destruct l as [|a l]; [contradiction|].
  destruct A2 as [A1 A2]. split; auto.
Qed.
Lemma all2_len {A B} (P : A -> B -> Prop) : forall m l, all2 P l m -> length l = length m.
Proof. induction m as [|b m IH]; intros [|a l] H; try contradiction; try discriminate; [reflexivity|]. cbn. f_equal. apply IH, H. Qed.

Lemma list_max_in x l : In x l -> x <= list_max l.
Proof. intros I. assert (H := proj1 (list_max_le l (list_max l)) (le_n _)). rewrite Forall_forall in H. auto. Qed.
Lemma depth_in x l n : list_max (map depth l) <= n -> In x l -> depth x <= n.
Proof. intros L I. apply (Nat.le_trans _ (list_max (map depth l))); [|exact L]. apply list_max_in, in_map, I. Qed.

(** * Extending the memory *)

Lemma extends_refl m : extends m m.
Proof. exists []. now rewrite app_nil_r. Qed.
Lemma extends_trans a b c : extends a b -> extends b c -> extends a c.
Proof. intros [l ->] [l' ->]. exists (l ++ l')%list. now rewrite app_assoc. Qed.
Lemma extends_length m m' : extends m m' -> length m <= length m'.
Proof. intros [l ->]. rewrite app_length. lia. Qed.
Lemma extends_nth m m' a c : extends m m' -> nth_error m a = Some c -> nth_error m' a = Some c.
Proof. intros [l ->] N. rewrite nth_error_app1; [exact N|]. apply nth_error_Some. congruence. Qed.
Lemma extends_alloc c m : extends m (fst (alloc c m)).
Proof. exists [c]. reflexivity. Qed.
Lemma alloc_nth (c : cell) (m : memory) : nth_error (m ++ [c])%list (length m) = Some c.
Proof. now rewrite nth_error_app2, Nat.sub_diag. Qed.

Lemma holds_frame (P Q : nat -> Prop) m m' : (forall a c, P a -> nth_error m a = Some c -> Q a /\ nth_error m' a = Some c) ->
  forall x r, holds P m r x -> holds Q m' r x.
Proof.
  intros F. induction x as [s| |o IH|l IH|h b s IHs IHl|l IH] using value_ind2; intros r H; cbn [holds] in *; try exact H.
  - destruct H as (a & b & -> & Pa & N & H1 & H2 & H3 & H4). destruct (F _ _ Pa N) as [Qa N']. exists a, b. repeat (split; [assumption || reflexivity|]).
    revert H4. apply all2_imp. apply Forall_forall. rewrite Forall_forall in IH. auto.
  - destruct H as (a & rs & -> & Pa & N & H4). destruct (F _ _ Pa N) as [Qa N']. exists a, rs. repeat (split; [assumption || reflexivity|]).
    revert H4. apply all2_imp. apply Forall_forall. rewrite Forall_forall in IH. auto.
  - destruct H as (a & rs & -> & Pa & N & H4). destruct (F _ _ Pa N) as [Qa N']. exists a, rs. repeat (split; [assumption || reflexivity|]). auto.
  - destruct H as (a & rs & -> & Pa & N & K & H4). destruct (F _ _ Pa N) as [Qa N']. exists a, rs. repeat (split; [assumption || reflexivity|]).
    revert H4. apply all2_imp. apply Forall_forall. rewrite Forall_forall in IH. auto.
Qed.
Lemma holds_extends P m m' r x : extends m m' -> holds P m r x -> holds P m' r x.
Proof. intros E. apply holds_frame. intros a c Pa N. split; [exact Pa|]. now apply (extends_nth m). Qed.
Lemma holds_weaken (P Q : nat -> Prop) m r x : (forall a, P a -> Q a) -> holds P m r x -> holds Q m r x.
Proof. intros I. apply holds_frame. auto. Qed.
Lemma all2_extends P m m' rs xs : extends m m' -> all2 (holds P m) rs xs -> all2 (holds P m') rs xs.
Proof. intros E. apply all2_imp, Forall_forall. intros x _ r. now apply holds_extends. Qed.

(** * Loops *)

(** What is expected from something that should produce a value, or panic, when it is done with the given memory or more. *)
Definition produces (m : memory) (f : doing) (y : option value) : Prop :=
  forall m1, extends m m1 ->
  match y with
  | None => f m1 = Panics
  | Some y => exists m2 r, f m1 = Done (m2, r) /\ extends m1 m2 /\ holds (fun a => length m1 <= a) m2 r y
  end.

Lemma produces_extends m m' f y : extends m m' -> produces m f y -> produces m' f y.
Proof. intros E H m1 E1. apply H. now apply (extends_trans m m'). Qed.

Lemma run_all_ok : forall l ys m, Forall2 (produces m) l ys ->
  match sequence ys with
  | None => run_all l m = Panics
  | Some zs => exists m' rs, run_all l m = Done (m', rs) /\ extends m m' /\ all2 (holds (fun a => length m <= a) m') rs zs
  end.
Proof.
  induction l as [|f l IH]; intros ys m H; inversion H as [|f' y l' ys' Hf Hl]; subst; cbn [sequence run_all].
  - exists m, []. split; [reflexivity|]. split; [apply extends_refl|reflexivity].
  - specialize (Hf m (extends_refl m)). destruct y as [y|]; [|now rewrite Hf].
    destruct Hf as (m1 & r & -> & E1 & H1).
    assert (Hl' : Forall2 (produces m1) l ys').
    { clear - Hl E1. induction Hl; constructor; auto. now apply (produces_extends m). }
    specialize (IH ys' m1 Hl'). destruct (sequence ys') as [zs|]; [|now rewrite IH].
    destruct IH as (m2 & rs & -> & E2 & H2). exists m2, (r :: rs). split; [reflexivity|]. split; [now apply (extends_trans m m1)|].
    split; [now apply (holds_extends _ m1)|]. revert H2. apply all2_imp, Forall_forall. intros x _ r'. apply holds_weaken.
    apply extends_length in E1. lia.
Qed.

Lemma run_new_ok l ys m f (g : list value -> value) : Forall2 (produces m) l ys ->
  (forall m' rs zs, length m <= length m' -> all2 (holds (fun a => length m <= a) m') rs zs -> length zs = length l ->
    holds (fun a => length m <= a) (m' ++ [f rs])%list (RPtr (length m')) (g zs)) ->
  match sequence ys with
  | None => run_new l f m = Panics
  | Some zs => exists m' r, run_new l f m = Done (m', r) /\ extends m m' /\ holds (fun a => length m <= a) m' r (g zs)
  end.
Proof.
  intros H G. unfold run_new. assert (R := run_all_ok l ys m H). assert (L : length l = length ys) by (clear - H; induction H; cbn; congruence).
  assert (Ls : forall zs, sequence ys = Some zs -> length zs = length ys).
  { clear. induction ys as [|[y|] ys IH]; intros zs E; cbn in E; try discriminate; [injection E as <-; reflexivity|].
    destruct (sequence ys) as [r|]; [|discriminate]. injection E as <-. cbn. f_equal. now apply IH. }
  destruct (sequence ys) as [zs|]; [|now rewrite R]. destruct R as (m' & rs & -> & E & A).
  exists (m' ++ [f rs])%list, (RPtr (length m')). split; [reflexivity|]. split; [apply (extends_trans m m' _ E); now exists [f rs]|].
  apply G; auto; [now apply extends_length|]. rewrite L. now apply Ls.
Qed.

Lemma all2_alloc P m c rs xs : all2 (holds P m) rs xs -> all2 (holds P (m ++ [c])%list) rs xs.
Proof. apply all2_extends. now exists [c]. Qed.

(** * Equations *)

Section Equations.
  Context (v : version) (k : key) (t : typ) (G : mget k (v_types v) = Some t).

  Definition build_one (fuel : nat) (v : version) (k : key) (r : ref) : doing :=
    fun m => match r with RNil => Panics | _ => build_ref fuel v k false r m end.
  Definition copy_one (fuel : nat) (v : version) (k : key) (r : ref) : doing :=
    fun m => match r with
    | RNil => match type_at k v with Some t => Done (alloc (new_ref v t) m) | None => Done (m, RNil) end
    | _ => copy_ref fuel v k false r m
    end.
  Definition built_cell (t : typ) (b : object_of ref) (fs : list ref) : cell :=
    CObject (MkObject (o_bits b) (if is_class t then o_id b else "") (if is_class t then o_href b else "") fs).

  Lemma ref_scalar fuel link r m : is_scalar t = true ->
    build_ref (S fuel) v k link r m = Done (m, r) /\ copy_ref (S fuel) v k link r m = Done (m, r).
  Proof. intros S. cbn [build_ref copy_ref]. unfold type_at. rewrite G, S. auto. Qed.

  Lemma ref_nil fuel link m : is_scalar t = false ->
    build_ref (S fuel) v k link RNil m = Done (m, RNil) /\ copy_ref (S fuel) v k link RNil m = Done (m, RNil).
  Proof. intros S. cbn [build_ref copy_ref]. unfold type_at. rewrite G, S. auto. Qed.

  Lemma ref_object fuel link a b m : structural t -> nth_error m a = Some (CObject b) ->
    build_ref (S fuel) v k link (RPtr a) m =
      run_new (zip_with (fun x y => build_ref fuel v (a_type x) (a_link x) y) (t_attrs t) (o_fields b)) (built_cell t b) m /\
    copy_ref (S fuel) v k link (RPtr a) m =
      run_new (zip_with (fun x y => copy_ref fuel v (a_type x) (a_link x) y) (t_attrs t) (o_fields b)) (built_cell t b) m.
  Proof.
    intros K N. cbn [build_ref copy_ref]. unfold type_at. rewrite G, N. unfold is_scalar, is_struct, built_cell.
    destruct K as [-> | ->]; cbn [kind_eqb orb]; auto.
  Qed.

  Context (e : key) (te : typ) (E : t_element t = Some e) (Ge : mget e (v_types v) = Some te).

  Lemma ref_slice fuel a l m : t_kind t = ListType -> nth_error m a = Some (CSlice l) ->
    build_ref (S fuel) v k false (RPtr a) m =
      (if is_scalar te then Done (alloc (CSlice l) m)
       else if is_struct te then run_new (map (build_one fuel v e) l) CSlice m else Done (m, RNil)) /\
    copy_ref (S fuel) v k false (RPtr a) m =
      (if is_scalar te then Done (alloc (CSlice l) m)
       else if is_struct te then run_new (map (copy_one fuel v e) l) CSlice m else Done (m, RNil)).
  Proof.
    intros K N. cbn [build_ref copy_ref]. unfold type_at, elem_key, build_one, copy_one, type_at. rewrite G, N, E, Ge.
    replace (is_scalar t) with false by (unfold is_scalar; now rewrite K). replace (is_struct t) with false by (unfold is_struct; now rewrite K).
    replace (is_list t) with true by (unfold is_list; now rewrite K). auto.
  Qed.

  Lemma ref_list fuel a h b s m : t_kind t = ListType -> nth_error m a = Some (CList h b s) ->
    build_ref (S fuel) v k true (RPtr a) m =
      match run_new (map (build_one fuel v e) match s with RPtr p => match nth_error m p with Some (CSlice l) => l | _ => [] end | _ => [] end) CSlice m with
      | Done (m, s) => Done (alloc (CList "" false s) m)
      | Panics => Panics
      | OutOfFuel => OutOfFuel
      end /\
    copy_ref (S fuel) v k true (RPtr a) m =
      match s with
      | RPtr p =>
          match nth_error m p with
          | Some (CSlice l) =>
              match run_new (map (copy_one fuel v e) l) CSlice m with
              | Done (m, s) => Done (alloc (CList "" false s) m)
              | Panics => Panics
              | OutOfFuel => OutOfFuel
              end
          | _ => Done (alloc (CList "" false RNil) m)
          end
      | _ => Done (alloc (CList "" false RNil) m)
      end.
  Proof.
    intros K N. cbn [build_ref copy_ref]. unfold type_at, elem_key, build_one, copy_one, type_at. rewrite G, N, E, Ge.
    replace (is_scalar t) with false by (unfold is_scalar; now rewrite K). replace (is_struct t) with false by (unfold is_struct; now rewrite K).
    replace (is_list t) with true by (unfold is_list; now rewrite K). auto.
  Qed.

  Lemma ref_map fuel link a l m : t_kind t = MapType -> nth_error m a = Some (CMap l) ->
    build_ref (S fuel) v k link (RPtr a) m =
      (if is_scalar te then Done (alloc (CMap l) m)
       else if is_struct te then run_new (map (fun p => build_one fuel v e (snd p)) l) (fun rs => CMap (combine (map fst l) rs)) m
       else Done (m, RNil)) /\
    copy_ref (S fuel) v k link (RPtr a) m =
      match l with
      | [] => Done (m, RNil)
      | _ =>
          if is_scalar te then Done (alloc (CMap l) m)
          else if is_struct te then run_new (map (fun p => copy_one fuel v e (snd p)) l) (fun rs => CMap (combine (map fst l) rs)) m
          else Done (m, RNil)
      end.
  Proof.
    intros K N. cbn [build_ref copy_ref]. unfold type_at, elem_key, build_one, copy_one, type_at. rewrite G, N, E, Ge.
    replace (is_scalar t) with false by (unfold is_scalar; now rewrite K). replace (is_struct t) with false by (unfold is_struct; now rewrite K).
    replace (is_list t) with false by (unfold is_list; now rewrite K). destruct l; auto.
  Qed.
End Equations.

(** * Kinds *)

Lemma typed_scalar v k link s : typed v k link (VScalar s) -> exists t, mget k (v_types v) = Some t /\ is_scalar t = true.
Proof.
  intros T. cbn in T. destruct (mget k (v_types v)) as [t|]; [|contradiction]. exists t. split; auto. unfold is_scalar.
  destruct (t_kind t); try contradiction; auto; destruct (t_element t); tauto.
Qed.
Lemma typed_nil v k link : typed v k link VNil -> exists t, mget k (v_types v) = Some t /\ is_scalar t = false.
Proof.
  intros T. cbn in T. destruct (mget k (v_types v)) as [t|]; [|contradiction]. exists t. split; auto. unfold is_scalar.
  destruct (t_kind t); try contradiction; auto.
Qed.
Lemma typed_object v k link o : typed v k link (VObject o) -> exists t, mget k (v_types v) = Some t /\ structural t /\ object_typed v t o.
Proof.
  intros T. cbn in T. destruct (mget k (v_types v)) as [t|]; [|contradiction]. exists t. split; auto. unfold structural, object_typed.
  destruct (t_kind t); try contradiction; auto; destruct (t_element t); tauto.
Qed.
Lemma typed_slice v k link l : typed v k link (VSlice l) -> link = false /\ exists t e te, mget k (v_types v) = Some t /\ t_kind t = ListType /\
  t_element t = Some e /\ mget e (v_types v) = Some te /\ In (t_kind te) [ScalarType; EnumType; InterfaceType; ClassType; StructType] /\ all1 (typed v e false) l.
Proof.
  intros T. cbn in T. destruct (mget k (v_types v)) as [t|]; [|contradiction]. destruct (t_kind t) eqn:K; try contradiction.
  - destruct T as [[e [te [E [Ge I]]]] T]. rewrite E in T. destruct T as [-> T]. split; [reflexivity|]. exists t, e, te. auto 10.
  - destruct T as [_ T]. destruct (t_element t); contradiction.
Qed.
Lemma typed_list v k link h b s : typed v k link (VList h b s) -> link = true /\ exists t e te, mget k (v_types v) = Some t /\ t_kind t = ListType /\
  t_element t = Some e /\ mget e (v_types v) = Some te /\ In (t_kind te) [ScalarType; EnumType; InterfaceType; ClassType; StructType] /\
  match s with VNil => True | VSlice l => all1 (typed v e false) l | _ => False end.
Proof.
  intros T. cbn in T. destruct (mget k (v_types v)) as [t|]; [|contradiction]. destruct (t_kind t) eqn:K; try contradiction.
  - destruct T as [[e [te [E [Ge I]]]] T]. rewrite E in T. destruct T as [-> T]. split; [reflexivity|]. exists t, e, te. auto 10.
  - destruct T as [_ T]. destruct (t_element t); contradiction.
Qed.
Lemma typed_map v k link l : typed v k link (VMap l) -> exists t e te, mget k (v_types v) = Some t /\ t_kind t = MapType /\
  t_element t = Some e /\ mget e (v_types v) = Some te /\ In (t_kind te) [ScalarType; EnumType; InterfaceType; ClassType; StructType] /\
  all1 (fun p => typed v e false (snd p)) l.
Proof.
  intros T. cbn in T. destruct (mget k (v_types v)) as [t|]; [|contradiction]. destruct (t_kind t) eqn:K; try contradiction.
  - destruct T as [_ T]. destruct (t_element t); contradiction.
  - destruct T as [[e [te [E [Ge I]]]] T]. rewrite E in T. destruct T as [_ T]. exists t, e, te. auto 10.
Qed.
Lemma elem_kinds te : In (t_kind te) [ScalarType; EnumType; InterfaceType; ClassType; StructType] ->
  is_scalar te = true \/ is_scalar te = false /\ is_struct te = true /\ structural te.
Proof. unfold is_scalar, is_struct, structural. intros H. cbn in H. repeat destruct H as [<-|H]; auto 10. Qed.

Lemma scalar_value v k link t x : mget k (v_types v) = Some t -> is_scalar t = true -> typed v k link x -> exists s, x = VScalar s.
Proof.
  intros G S T. unfold is_scalar in S. destruct x; cbn in T; rewrite G in T; destruct (t_kind t); try discriminate; try contradiction; eauto.
Qed.
Lemma scalars_hold P Q v e te m m' rs l : mget e (v_types v) = Some te -> is_scalar te = true -> all1 (typed v e false) l ->
  all2 (holds P m) rs l -> all2 (holds Q m') rs l.
Proof.
  intros G S T. apply all2_imp, Forall_forall. intros x I r H. destruct (scalar_value v e false te x G S (all1_In _ _ _ T I)) as [s ->]. exact H.
Qed.

(** * Copying and building *)

Lemma zip_ok (P : nat -> Prop) v m (f : attribute -> ref -> doing) (g : attribute -> value -> option value) : forall l rs xs,
  all2 (fun a y => typed v (a_type a) (a_link a) y) l xs -> all2 (holds P m) rs xs ->
  (forall a r x, In x xs -> In a l -> typed v (a_type a) (a_link a) x -> holds P m r x -> produces m (f a r) (g a x)) ->
  Forall2 (produces m) (zip_with f l rs) (zip_with g l xs).
Proof.
  intros l rs xs. revert l rs. induction xs as [|x xs IH]; intros l rs T H F.
  - cbn in T, H. subst. constructor.
  - destruct l as [|a l]; [contradiction|]. destruct rs as [|r rs]; [contradiction|]. destruct T as [T1 T2]. destruct H as [H1 H2].
    cbn [zip_with]. constructor; [apply F; auto; now left|]. apply IH; auto. intros; apply F; auto; now right.
Qed.

Lemma map_ok (P : nat -> Prop) m (Q : value -> Prop) (f : ref -> doing) (g : value -> option value) : forall xs rs,
  all1 Q xs -> all2 (holds P m) rs xs -> (forall r x, In x xs -> Q x -> holds P m r x -> produces m (f r) (g x)) ->
  Forall2 (produces m) (map f rs) (map g xs).
Proof.
  induction xs as [|x xs IH]; intros rs T H F.
  - cbn in H. subst. constructor.
  - destruct rs as [|r rs]; [contradiction|]. destruct T as [T1 T2]. destruct H as [H1 H2]. cbn [map].
    constructor; [apply F; auto; now left|]. apply IH; auto. intros; apply F; auto; now right.
Qed.

Lemma map_snd {A B C} (f : B -> C) (l : list (A * B)) : map (fun p => f (snd p)) l = map f (map snd l).
Proof. now rewrite map_map. Qed.

Definition builds (v : version) (P : nat -> Prop) (x : value) : Prop := forall k link r m fuel,
  typed v k link x -> holds P m r x -> depth x <= fuel -> produces m (build_ref fuel v k link r) (build_value v k link x).

Lemma builds_one v P e te x r m fuel : builds v P x -> mget e (v_types v) = Some te -> structural te ->
  typed v e false x -> holds P m r x -> depth x <= fuel -> produces m (build_one fuel v e r) (build_item v e x).
Proof.
  intros B Ge S T H D. unfold build_one, build_item. destruct x.
  - destruct (typed_scalar _ _ _ _ T) as (t' & G' & S'). rewrite Ge in G'. injection G' as <-. unfold is_scalar in S'. destruct S as [S|S]; rewrite S in S'; discriminate.
  - cbn in H. subst r. intros m1 _. reflexivity.
  - assert (H' := H). destruct H as (a & b & -> & _). now apply B.
  - destruct (typed_slice _ _ _ _ T) as (_ & t' & e' & te' & G' & K & _). rewrite Ge in G'. injection G' as <-. destruct S; congruence.
  - destruct (typed_list _ _ _ _ _ _ T) as (_ & t' & e' & te' & G' & K & _). rewrite Ge in G'. injection G' as <-. destruct S; congruence.
  - destruct (typed_map _ _ _ _ T) as (t' & e' & te' & G' & K & _). rewrite Ge in G'. injection G' as <-. destruct S; congruence.
Qed.

Lemma produces_ext m f g y : (forall m, f m = g m) -> produces m g y -> produces m f y.
Proof. intros E H m1 E1. rewrite E. now apply H. Qed.

(** One level: it is enough to consider the memory where the value is. *)
Lemma produces_now (P : nat -> Prop) m f y x r : holds P m r x ->
  (forall m, holds P m r x ->
   match y with
   | None => f m = Panics
   | Some y => exists m' r', f m = Done (m', r') /\ extends m m' /\ holds (fun a => length m <= a) m' r' y
   end) -> produces m f y.
Proof. intros H F m1 E1. apply F. now apply (holds_extends _ m). Qed.

Lemma holds_slice_new (P : nat -> Prop) m rs zs : P (length m) -> all2 (holds P m) rs zs -> holds P (m ++ [CSlice rs])%list (RPtr (length m)) (VSlice zs).
Proof. intros p A. exists (length m), rs. split; [reflexivity|]. split; [exact p|]. split; [apply alloc_nth|]. now apply all2_alloc. Qed.
Lemma holds_map_new (P : nat -> Prop) m ks rs zs : P (length m) -> length zs = length ks -> all2 (holds P m) rs zs ->
  holds P (m ++ [CMap (combine ks rs)])%list (RPtr (length m)) (VMap (combine ks zs)).
Proof.
  intros p L A. assert (L2 := all2_len _ _ _ A). destruct (combine_fst ks zs L) as [F1 F2]. destruct (combine_fst ks rs (eq_trans L2 L)) as [F3 F4].
  exists (length m), (combine ks rs). split; [reflexivity|]. split; [exact p|]. split; [apply alloc_nth|]. rewrite F1, F3, F4. split; [reflexivity|].
  apply (all2_snd (holds P _)). rewrite F2. now apply all2_alloc.
Qed.
Lemma holds_object_new (P : nat -> Prop) m t (b : object_of ref) (o : object) rs zs : P (length m) -> all2 (holds P m) rs zs ->
  o_bits b = o_bits o -> o_id b = o_id o -> o_href b = o_href o ->
  holds P (m ++ [built_cell t b rs])%list (RPtr (length m))
    (VObject (MkObject (o_bits o) (if is_class t then o_id o else "") (if is_class t then o_href o else "") zs)).
Proof.
  intros p A H1 H2 H3. eexists (length m), _. split; [reflexivity|]. split; [exact p|]. split; [apply alloc_nth|]. cbn [o_bits o_id o_href o_fields].
  rewrite H1, H2, H3. repeat (split; [reflexivity|]). now apply all2_alloc.
Qed.

Lemma build_ok v P : forall x, builds v P x.
Proof.
  induction x as [s| |o IH|l IH|h b s IHs IHl|l IH] using value_ind2; intros k link r m fuel T H D;
    (destruct fuel as [|fuel]; [cbn in D; lia|]); apply (produces_now P m _ _ _ r H); clear m H; intros m H.
  - destruct (typed_scalar _ _ _ _ T) as (t & G & Sc). destruct (scalar_eq v k link t (VScalar s) G Sc) as [_ ->].
    destruct (ref_scalar v k t G fuel link r m Sc) as [-> _]. exists m, r. split; [reflexivity|]. split; [apply extends_refl|exact H].
  - destruct (typed_nil _ _ _ T) as (t & G & Sc). destruct (nil_eq v k link t G Sc) as [_ ->]. cbn in H. subst r.
    destruct (ref_nil v k t G fuel link m Sc) as [-> _]. exists m, RNil. split; [reflexivity|]. split; [apply extends_refl|reflexivity].
  - destruct (typed_object _ _ _ _ T) as (t & G & K & _ & _ & _ & TF). rewrite (build_object_eq v k link t o G K).
    destruct H as (a & b & -> & _ & N & H1 & H2 & H3 & H4). destruct (ref_object v k t G fuel link a b m K N) as [-> _]. unfold build_fields.
    assert (Z := run_new_ok (zip_with (fun x y => build_ref fuel v (a_type x) (a_link x) y) (t_attrs t) (o_fields b))
      (zip_with (fun a y => build_value v (a_type a) (a_link a) y) (t_attrs t) (o_fields o)) m (built_cell t b)
      (fun fs => VObject (MkObject (o_bits o) (if is_class t then o_id o else "") (if is_class t then o_href o else "") fs))).
    destruct (sequence _) as [fs|]; apply Z; clear Z.
    1,3: apply (zip_ok P v m _ _ _ _ _ TF H4); intros a' r' x I _ T' H'; rewrite Forall_forall in IH; apply (IH x I); auto; cbn [depth] in D;
      apply (depth_in x (o_fields o)); [lia|exact I].
    all: intros m' rs zs L A _; apply holds_object_new; auto.
  - destruct (typed_slice _ _ _ _ T) as (-> & t & e & te & G & K & E & Ge & Ke & Tl). destruct H as (a & rs & -> & _ & N & A).
    rewrite (build_slice_eq v k t e te l G K E Ge). destruct (ref_slice v k t G e te E Ge fuel a rs m K N) as [-> _].
    destruct (elem_kinds te Ke) as [Sc|(Sc & St & Se)]; rewrite Sc.
    + exists (m ++ [CSlice rs])%list, (RPtr (length m)). split; [reflexivity|]. split; [now exists [CSlice rs]|].
      apply holds_slice_new; [lia|]. now apply (scalars_hold P _ v e te m m rs l Ge Sc Tl).
    + rewrite St. assert (Z := run_new_ok (map (build_one fuel v e) rs) (map (build_item v e) l) m CSlice VSlice).
      destruct (sequence _) as [fs|]; apply Z; clear Z.
      1,3: apply (map_ok P m (typed v e false) _ _ l rs Tl A); intros r' x I T' H'; rewrite Forall_forall in IH; apply (builds_one v P e te x); auto;
        cbn [depth] in D; apply (depth_in x l); [lia|exact I].
      all: intros m' rs' zs L A' _; now apply holds_slice_new.
  - destruct (typed_list _ _ _ _ _ _ T) as (-> & t & e & te & G & K & E & Ge & Ke & Tl). destruct H as (a & rs & -> & _ & N & A).
    rewrite (build_list_eq v k t e te h b s G K E Ge). destruct (ref_list v k t G e te E Ge fuel a h b rs m K N) as [-> _].
    assert (Z : exists items, (match rs with RPtr p => match nth_error m p with Some (CSlice l) => l | _ => [] end | _ => [] end = items) /\
      match sequence (match s with VSlice l => map (build_item v e) l | _ => [] end) with
      | None => run_new (map (build_one fuel v e) items) CSlice m = Panics
      | Some zs => exists m' r, run_new (map (build_one fuel v e) items) CSlice m = Done (m', r) /\ extends m m' /\ holds (fun a => length m <= a) m' r (VSlice zs)
      end).
    { destruct s as [| | |l| |]; try contradiction.
      - cbn in A. subst rs. exists []. split; [reflexivity|]. cbn [sequence map]. apply (run_new_ok [] [] m CSlice VSlice (Forall2_nil _)).
        intros m' rs' zs L A' _. now apply holds_slice_new.
      - destruct A as (p & items & -> & _ & Np & A). rewrite Np. exists items. split; [reflexivity|].
        assert (Z := run_new_ok (map (build_one fuel v e) items) (map (build_item v e) l) m CSlice VSlice).
        specialize (IHl l eq_refl). destruct (elem_kinds te Ke) as [Sc|(Sc & St & Se)].
        + destruct (sequence _) as [fs|]; apply Z; clear Z.
          1,3: apply (map_ok P m (typed v e false) _ _ l items Tl A); intros r' x I T' H'; destruct (scalar_value v e false te x Ge Sc T') as [sc ->];
            cbn in H'; subst r'; rewrite Forall_forall in IHl; unfold build_one, build_item; apply (IHl _ I); [exact T'|reflexivity|];
            cbn [depth] in D; apply (depth_in (VScalar sc) l); [lia|exact I].
          all: intros m' rs' zs L A' _; now apply holds_slice_new.
        + destruct (sequence _) as [fs|]; apply Z; clear Z.
          1,3: apply (map_ok P m (typed v e false) _ _ l items Tl A); intros r' x I T' H'; rewrite Forall_forall in IHl; apply (builds_one v P e te x); auto;
            cbn [depth] in D; apply (depth_in x l); [lia|exact I].
          all: intros m' rs' zs L A' _; now apply holds_slice_new. }
    destruct Z as (items & -> & Z). destruct (sequence _) as [zs|]; [|now rewrite Z]. destruct Z as (m' & r & -> & Ex & Hz).
    exists (m' ++ [CList "" false r])%list, (RPtr (length m')). split; [reflexivity|]. split; [apply (extends_trans m m' _ Ex); now exists [CList "" false r]|].
    exists (length m'), r. split; [reflexivity|]. split; [now apply extends_length|]. split; [apply alloc_nth|].
    apply (holds_extends _ m'); [now exists [CList "" false r]|exact Hz].
  - destruct (typed_map _ _ _ _ T) as (t & e & te & G & K & E & Ge & Ke & Tl). destruct H as (a & rs & -> & _ & N & F & A).
    rewrite (build_map_eq v k link t e te l G K E Ge). destruct (ref_map v k t G e te E Ge fuel link a rs m K N) as [-> _].
    assert (A' : all2 (holds P m) (map snd rs) (map snd l)).
    { clear - A. revert A. generalize (map snd rs). induction l as [|p l IH]; intros [|r rs']; cbn; try tauto; try discriminate. intros [H1 H2]. auto. }
    apply all1_snd in Tl.
    destruct (elem_kinds te Ke) as [Sc|(Sc & St & Se)]; rewrite Sc.
    + exists (m ++ [CMap rs])%list, (RPtr (length m)). split; [reflexivity|]. split; [now exists [CMap rs]|].
      exists (length m), rs. split; [reflexivity|]. split; [lia|]. split; [apply alloc_nth|]. split; [exact F|]. apply (all2_snd (holds _ _)).
      now apply (scalars_hold P _ v e te m _ (map snd rs) (map snd l) Ge Sc Tl).
    + rewrite St. rewrite !map_snd, F. assert (Z := run_new_ok (map (build_one fuel v e) (map snd rs)) (map (build_item v e) (map snd l)) m
        (fun rs => CMap (combine (map fst l) rs)) (fun ys => VMap (combine (map fst l) ys))).
      destruct (sequence _) as [fs|]; apply Z; clear Z.
      1,3: apply (map_ok P m (typed v e false) _ _ _ _ Tl A'); intros r' x I T' H'; apply Forall_snd in IH; rewrite Forall_forall in IH; apply (builds_one v P e te x); auto;
        cbn [depth] in D; rewrite <- map_map in D; apply (depth_in x (map snd l)); [lia|exact I].
      all: intros m' rs' zs L A2 Lz; apply holds_map_new; auto; rewrite map_length in Lz; rewrite Lz, <- F, !map_length; reflexivity.
Qed.
