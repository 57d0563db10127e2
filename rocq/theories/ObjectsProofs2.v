(** Proofs about copying objects to builders and building them. *)
From Coq Require Import Ascii String Bool Arith ZArith NArith Lia List.
From Verif Require Import GoStrings GoMap NamesModel NamesSpec ConceptsModel ConceptsSpec GoTimeModel ObjectsModel ObjectsSpec ObjectsProofs.
Import ListNotations.
Local Open Scope string_scope.

(** * Induction over values *)

Section ValueInd.
  Context (P : value -> Prop).
  Context (HS : forall s, P (VScalar s)).
  Context (HN : P VNil).
  Context (HO : forall o, Forall P (o_fields o) -> P (VObject o)).
  Context (HL : forall l, Forall P l -> P (VSlice l)).
  Context (HT : forall h b s, P s -> (forall l, s = VSlice l -> Forall P l) -> P (VList h b s)).
  Context (HM : forall l, Forall (fun p => P (snd p)) l -> P (VMap l)).

  Fixpoint value_ind2 (x : value) : P x :=
    let many := fix many (l : list value) : Forall P l :=
      match l with [] => Forall_nil _ | y :: l => Forall_cons _ (value_ind2 y) (many l) end in
    match x with
    | VScalar s => HS s
    | VNil => HN
    | VObject o => HO o (match o with MkObject _ _ _ fs => many fs end)
    | VSlice l => HL l (many l)
    | VList h b s =>
        HT h b s (value_ind2 s)
          (match s as s0 return (forall l, s0 = VSlice l -> Forall P l) with
           | VSlice l0 => fun l E => match E in (_ = z) return (match z with VSlice l1 => Forall P l1 | _ => True end) with eq_refl => many l0 end
           | VScalar _ => fun l E => match E in (_ = z) return (match z with VSlice l1 => Forall P l1 | _ => True end) with eq_refl => I end
           | VNil => fun l E => match E in (_ = z) return (match z with VSlice l1 => Forall P l1 | _ => True end) with eq_refl => I end
           | VObject _ => fun l E => match E in (_ = z) return (match z with VSlice l1 => Forall P l1 | _ => True end) with eq_refl => I end
           | VList _ _ _ => fun l E => match E in (_ = z) return (match z with VSlice l1 => Forall P l1 | _ => True end) with eq_refl => I end
           | VMap _ => fun l E => match E in (_ = z) return (match z with VSlice l1 => Forall P l1 | _ => True end) with eq_refl => I end
           end)
    | VMap l =>
        HM l ((fix many2 (l : list (string * value)) : Forall (fun p => P (snd p)) l :=
                 match l with [] => Forall_nil _ | (k, y) :: l => Forall_cons (k, y) (value_ind2 y) (many2 l) end) l)
    end.
End ValueInd.

Section AnyInd.
  Context (P : any -> Prop).
  Context (H1 : P ANil) (H2 : forall b, P (ABool b)) (H3 : forall z, P (AFloat z)) (H4 : forall s, P (AString s)).
  Context (H5 : forall l, Forall P l -> P (ASlice l)) (H6 : forall l, Forall (fun p => P (snd p)) l -> P (AMap l)).
  Fixpoint any_ind2 (a : any) : P a :=
    match a with
    | ANil => H1 | ABool b => H2 b | AFloat z => H3 z | AString s => H4 s
    | ASlice l => H5 l ((fix go (l : list any) : Forall P l :=
        match l with [] => Forall_nil _ | y :: l => Forall_cons _ (any_ind2 y) (go l) end) l)
    | AMap l => H6 l ((fix go (l : list (string * any)) : Forall (fun p => P (snd p)) l :=
        match l with [] => Forall_nil _ | (k, y) :: l => Forall_cons (k, y) (any_ind2 y) (go l) end) l)
    end.
End AnyInd.

(** * Equations *)

Definition copy_item (v : version) (k : key) (x : value) : value :=
  match x with
  | VNil => match type_at k v with Some t => VObject (new_builder v t) | None => VNil end
  | _ => copy_value v k false x
  end.

Definition build_item (v : version) (k : key) (x : value) : option value :=
  match x with VNil => None | _ => build_value v k false x end.

Definition copy_fields (v : version) (l : list attribute) (m : list value) : list value :=
  zip_with (fun a y => copy_value v (a_type a) (a_link a) y) l m.

Definition build_fields (v : version) (l : list attribute) (m : list value) : option (list value) :=
  sequence (zip_with (fun a y => build_value v (a_type a) (a_link a) y) l m).

Lemma copy_object_eq v k link t o : mget k (v_types v) = Some t -> structural t ->
  copy_value v k link (VObject o) =
  VObject (MkObject (o_bits o) (if is_class t then o_id o else "") (if is_class t then o_href o else "")
             (copy_fields v (t_attrs t) (o_fields o))).
Proof.
  intros G S. cbn. unfold type_at. rewrite G. unfold is_scalar, is_struct.
  destruct S as [-> | ->]; reflexivity.
Qed.

Lemma build_object_eq v k link t b : mget k (v_types v) = Some t -> structural t ->
  build_value v k link (VObject b) =
  match build_fields v (t_attrs t) (o_fields b) with
  | None => None
  | Some fs => Some (VObject (MkObject (o_bits b) (if is_class t then o_id b else "") (if is_class t then o_href b else "") fs))
  end.
Proof.
  intros G S. cbn. unfold type_at. rewrite G. unfold is_scalar, is_struct.
  destruct S as [-> | ->]; reflexivity.
Qed.

Lemma scalar_eq v k link t x : mget k (v_types v) = Some t -> is_scalar t = true ->
  copy_value v k link x = x /\ build_value v k link x = Some x.
Proof.
  intros G S. destruct x; cbn; unfold type_at; rewrite G, S; auto.
Qed.

Lemma copy_slice_eq v k t e te l : mget k (v_types v) = Some t -> t_kind t = ListType ->
  t_element t = Some e -> mget e (v_types v) = Some te ->
  copy_value v k false (VSlice l) =
  (if is_scalar te then VSlice l else if is_struct te then VSlice (map (copy_item v e) l) else VNil).
Proof.
  intros G K E Ge. cbn. unfold copy_item, build_item, type_at, elem_key. rewrite G, E, Ge. unfold is_scalar at 1, is_struct at 1, is_list. rewrite K. reflexivity.
Qed.

Lemma build_slice_eq v k t e te l : mget k (v_types v) = Some t -> t_kind t = ListType ->
  t_element t = Some e -> mget e (v_types v) = Some te ->
  build_value v k false (VSlice l) =
  (if is_scalar te then Some (VSlice l)
   else if is_struct te then match sequence (map (build_item v e) l) with None => None | Some l => Some (VSlice l) end
   else Some VNil).
Proof.
  intros G K E Ge. cbn. unfold copy_item, build_item, type_at, elem_key. rewrite G, E, Ge. unfold is_scalar at 1, is_struct at 1, is_list. rewrite K. reflexivity.
Qed.

Lemma copy_list_eq v k t e te h b s : mget k (v_types v) = Some t -> t_kind t = ListType ->
  t_element t = Some e -> mget e (v_types v) = Some te ->
  copy_value v k true (VList h b s) =
  VList "" false (match s with VSlice l => VSlice (map (copy_item v e) l) | _ => VNil end).
Proof.
  intros G K E Ge. cbn. unfold copy_item, build_item, type_at, elem_key. rewrite G, E, Ge. unfold is_scalar at 1, is_struct at 1, is_list. rewrite K. reflexivity.
Qed.

Lemma build_list_eq v k t e te h b s : mget k (v_types v) = Some t -> t_kind t = ListType ->
  t_element t = Some e -> mget e (v_types v) = Some te ->
  build_value v k true (VList h b s) =
  match sequence (match s with VSlice l => map (build_item v e) l | _ => [] end) with
  | None => None
  | Some l => Some (VList "" false (VSlice l))
  end.
Proof.
  intros G K E Ge. cbn. unfold copy_item, build_item, type_at, elem_key. rewrite G, E, Ge. unfold is_scalar at 1, is_struct at 1, is_list. rewrite K. reflexivity.
Qed.

Lemma copy_map_eq v k link t e te l : mget k (v_types v) = Some t -> t_kind t = MapType ->
  t_element t = Some e -> mget e (v_types v) = Some te -> l <> [] ->
  copy_value v k link (VMap l) =
  (if is_scalar te then VMap l
   else if is_struct te then VMap (map (fun p => (fst p, copy_item v e (snd p))) l) else VNil).
Proof.
  intros G K E Ge L. destruct l as [|[k0 y0] l]; [congruence|].
  cbn. unfold copy_item, build_item, type_at, elem_key. rewrite G, E, Ge. unfold is_scalar at 1, is_struct at 1, is_list. rewrite K. cbn [kind_eqb orb].
  destruct (is_scalar te); auto. destruct (is_struct te); auto.
  apply f_equal. apply f_equal. apply map_ext. intros [k1 y1]. reflexivity.
Qed.

Lemma build_map_eq v k link t e te l : mget k (v_types v) = Some t -> t_kind t = MapType ->
  t_element t = Some e -> mget e (v_types v) = Some te ->
  build_value v k link (VMap l) =
  (if is_scalar te then Some (VMap l)
   else if is_struct te then
     match sequence (map (fun p => build_item v e (snd p)) l) with
     | None => None
     | Some ys => Some (VMap (combine (map fst l) ys))
     end
   else Some VNil).
Proof.
  intros G K E Ge.
  cbn. unfold copy_item, build_item, type_at, elem_key. rewrite G, E, Ge. unfold is_scalar at 1, is_struct at 1, is_list. rewrite K. cbn [kind_eqb orb].
  destruct (is_scalar te); auto. destruct (is_struct te); auto.
  erewrite map_ext; [reflexivity|]. intros [k1 y1]. reflexivity.
Qed.

Lemma nil_eq v k link t : mget k (v_types v) = Some t -> is_scalar t = false ->
  copy_value v k link VNil = VNil /\ build_value v k link VNil = Some VNil.
Proof.
  intros G S. cbn. unfold type_at. rewrite G, S.
  destruct (is_struct t), (mget (elem_key t) (v_types v)), (is_list t), link; auto.
Qed.

(** * Building a new builder *)

Lemma build_zero v k link : build_value v k link (field_zero v k) <> None.
Proof.
  assert (H : forall x, x = VNil \/ (exists s, x = VScalar s) -> build_value v k link x <> None).
  { intros x [->|[s ->]]; cbn; destruct (type_at k v) as [t|]; try discriminate;
      destruct (is_scalar t), (is_struct t); try discriminate;
      destruct (type_at (elem_key t) v); try discriminate; destruct (is_list t), link; discriminate. }
  apply H. unfold field_zero.
  destruct (is_builtin nBoolean k); eauto. destruct (is_builtin nInteger k); eauto.
  destruct (is_builtin nLong k); eauto. destruct (is_builtin nFloat k); eauto.
  destruct (is_builtin nString k); eauto. destruct (is_builtin nInterface k); eauto.
  destruct (is_builtin nDate k); eauto. destruct (type_at k v) as [t|]; auto. destruct (is_enum t); eauto.
Qed.

Lemma build_new_fields v l : exists fs, build_fields v l (map (fun a => field_zero v (a_type a)) l) = Some fs.
Proof.
  unfold build_fields. induction l as [|a l [fs IH]]; cbn; [eauto|].
  destruct (build_value v (a_type a) (a_link a) (field_zero v (a_type a))) as [y|] eqn:E.
  - rewrite IH. eauto.
  - exfalso. now apply (build_zero v (a_type a) (a_link a)).
Qed.

(** * Copy and build *)

Definition copies (v : version) (x : value) : Prop :=
  forall k link, typed v k link x ->
    exists y, build_value v k link (copy_value v k link x) = Some y /\ (copyable v k x -> same v k link x y).

Lemma copies_fields v t o l m i :
  Forall (copies v) m -> all2 (fun a y => typed v (a_type a) (a_link a) y) l m ->
  exists ys, build_fields v l (copy_fields v l m) = Some ys /\
    (all_fields (fun i a x _ => present t i o -> copyable v (a_type a) x) i l m m ->
     all_fields (fun i a x y => present t i o -> same v (a_type a) (a_link a) x y) i l m ys).
Proof.
  revert l i. induction m as [|x m IH]; intros l i F T.
  - cbn in T. subst l. exists []. cbn. auto.
  - destruct l as [|a l]; [cbn in T; contradiction|]. cbn in T. destruct T as [T1 T2].
    inversion F as [|? ? F1 F2]; subst. destruct (F1 _ _ T1) as [y [B C]].
    destruct (IH l (S i) F2 T2) as [ys [Bs Cs]].
    exists (y :: ys). split.
    + unfold build_fields, copy_fields in *. cbn. rewrite B. rewrite Bs. reflexivity.
    + cbn. intros [H1 H2]. split; auto.
Qed.

Lemma scalar_same v e te x : mget e (v_types v) = Some te -> is_scalar te = true -> typed v e false x -> same v e false x x.
Proof.
  intros G S T. destruct x; cbn in *; rewrite G in *; auto; unfold is_scalar in S; destruct (t_kind te); try discriminate; contradiction.
Qed.

Lemma copies_items v e te l : mget e (v_types v) = Some te ->
  In (t_kind te) [ScalarType; EnumType; InterfaceType; ClassType; StructType] ->
  Forall (copies v) l -> all1 (typed v e false) l ->
  exists ys, sequence (map (build_item v e) (map (copy_item v e) l)) = Some ys /\ length ys = length l /\
    (all1 (fun y => y <> VNil /\ copyable v e y) l -> all2 (fun y x => same v e false x y) ys l).
Proof.
  intros G K. induction l as [|x l IH]; intros F T.
  - exists []. cbn. auto.
  - cbn in T. destruct T as [T1 T2]. inversion F as [|? ? F1 F2]; subst.
    destruct (IH F2 T2) as [ys [Bs [Ls Cs]]].
    assert (exists y, build_item v e (copy_item v e x) = Some y /\ (x <> VNil -> copyable v e x -> same v e false x y)) as [y [B C]].
    { destruct x as [s| |o|l0|h b s|l0].
      1:{ destruct (F1 e false T1) as [y [B C]].
        assert (S : is_scalar te = true).
        { cbn in T1. rewrite G in T1. unfold is_scalar. destruct (t_kind te); try reflexivity; try contradiction; destruct (t_element te); tauto. }
        unfold build_item, copy_item. destruct (scalar_eq v e false te (VScalar s) G S) as [E1 E2].
        rewrite E1 in *. exists y. auto. }
      1:{ assert (S : structural te).
        { cbn in T1. rewrite G in T1. unfold structural. cbn in K. destruct (t_kind te); auto; contradiction || (repeat destruct K as [K|K]; discriminate || contradiction). }
        unfold build_item, copy_item, type_at. rewrite G, (build_object_eq _ _ _ te) by auto. cbn [o_fields new_builder].
        destruct (build_new_fields v (t_attrs te)) as [fs ->]. eexists. split; [reflexivity|]. congruence. }
      1:{ destruct (F1 e false T1) as [y [B C]].
        assert (S : structural te).
        { cbn in T1. rewrite G in T1. unfold structural. destruct (t_kind te); auto; try contradiction; destruct (t_element te); tauto. }
        unfold build_item, copy_item. rewrite (copy_object_eq _ _ _ te) in * by auto. exists y. auto. }
      all: exfalso; cbn in T1; rewrite G in T1; cbn in K; destruct (t_kind te); try contradiction; repeat destruct K as [K|K]; discriminate || contradiction. }
    exists (y :: ys). cbn. rewrite B, Bs. split; [reflexivity|]. split; [now rewrite Ls|].
    intros [[H1 H2] H3]. auto.
Qed.

Lemma all2_refl {A} (P : A -> A -> Prop) l : (forall x, In x l -> P x x) -> all2 P l l.
Proof. induction l as [|x l IH]; cbn; auto. Qed.

Lemma all1_In {A} (P : A -> Prop) l x : all1 P l -> In x l -> P x.
Proof. induction l as [|y l IH]; cbn; [tauto|]. intros [H1 H2] [<-|H]; auto. Qed.

Lemma map_items v e l :
  sequence (map (fun p => build_item v e (snd p)) (map (fun p => (fst p, copy_item v e (snd p))) l)) =
  sequence (map (build_item v e) (map (copy_item v e) (map (@snd string value) l))).
Proof. now rewrite !map_map. Qed.

Lemma combine_fst {A B} (l : list A) (m : list B) : length m = length l -> map fst (combine l m) = l /\ map snd (combine l m) = m.
Proof.
  revert m. induction l as [|a l IH]; intros [|b m] H; cbn in *; try discriminate; auto.
  destruct (IH m) as [-> ->]; auto.
Qed.

Lemma all2_snd {A B C} (P : A -> C -> Prop) (m : list A) (l : list (B * C)) :
  all2 P m (map snd l) -> all2 (fun y p => P y (snd p)) m l.
Proof. revert m. induction l as [|p l IH]; intros [|y m]; cbn; try tauto; try discriminate. intros [H1 H2]. auto. Qed.

Lemma all1_snd {A B} (P : B -> Prop) (l : list (A * B)) : all1 (fun p => P (snd p)) l -> all1 P (map snd l).
Proof. induction l as [|p l IH]; cbn; tauto. Qed.

Lemma Forall_snd {A B} (P : B -> Prop) (l : list (A * B)) : Forall (fun p => P (snd p)) l -> Forall P (map snd l).
Proof. induction 1; constructor; auto. Qed.

Lemma copy_build v : forall x, copies v x.
Proof.
  induction x as [s| |o IH|l IH|h b s IHs IHl|l IH] using value_ind2; intros k link T.
  - assert (exists t, mget k (v_types v) = Some t /\ is_scalar t = true) as [t [G S]].
    { cbn in T. destruct (mget k (v_types v)) as [t|]; [|contradiction]. exists t. split; auto. unfold is_scalar.
      destruct (t_kind t); try contradiction; auto; destruct (t_element t); tauto. }
    destruct (scalar_eq v k link t (VScalar s) G S) as [-> ->]. eexists. split; [reflexivity|].
    intros _. cbn. rewrite G. reflexivity.
  - assert (exists t, mget k (v_types v) = Some t /\ is_scalar t = false) as [t [G S]].
    { cbn in T. destruct (mget k (v_types v)) as [t|]; [|contradiction]. exists t. split; auto. unfold is_scalar.
      destruct (t_kind t); try contradiction; auto. }
    destruct (nil_eq v k link t G S) as [-> ->]. eexists. split; [reflexivity|].
    intros _. cbn. rewrite G. reflexivity.
  - assert (exists t, mget k (v_types v) = Some t /\ structural t) as [t [G S]].
    { cbn in T. destruct (mget k (v_types v)) as [t|]; [|contradiction]. exists t. split; auto. unfold structural.
      destruct (t_kind t); try contradiction; auto; destruct (t_element t); tauto. }
    assert (T' : object_typed v t o).
    { cbn in T. rewrite G in T. unfold object_typed. destruct S as [S|S]; rewrite S in *; exact T. }
    destruct T' as (T1 & T2 & T3 & T4).
    rewrite (copy_object_eq _ _ _ t), (build_object_eq _ _ _ t) by auto. cbn [o_fields o_bits o_id o_href].
    destruct (copies_fields v t o (t_attrs t) (o_fields o) 0 IH T4) as [ys [-> C]].
    eexists. split; [reflexivity|]. intros Cp. cbn in Cp. rewrite G in Cp. cbn. rewrite G.
    eexists. split; [reflexivity|]. cbn [o_bits o_id o_href o_fields]. split; [reflexivity|].
    assert (W : (if is_class t then if is_class t then o_id o else "" else "") = o_id o /\
                (if is_class t then if is_class t then o_href o else "" else "") = o_href o).
    { unfold is_class. destruct S as [S|S]; rewrite S in *; cbn; auto. destruct T3 as [-> ->]; auto. }
    destruct W as [-> ->]. split; [auto|]. split; [auto|]. apply C, Cp.
  - assert (exists t, mget k (v_types v) = Some t /\ t_kind t = ListType) as [t [G S]].
    { cbn in T. destruct (mget k (v_types v)) as [t|]; [|contradiction]. exists t. split; auto.
      destruct (t_kind t); try contradiction; auto; destruct (t_element t); tauto. }
    assert (Pl : plain v t). { cbn in T. rewrite G, S in T. tauto. }
    destruct Pl as (e & te & E & Ge & Ke).
    assert (T' : link = false /\ all1 (typed v e false) l).
    { cbn in T. rewrite G, S, E in T. tauto. }
    destruct T' as [-> T']. rewrite (copy_slice_eq _ _ t e te) by auto.
    destruct (is_scalar te) eqn:Se.
    + rewrite (build_slice_eq _ _ t e te), Se by auto. eexists. split; [reflexivity|]. intros _. cbn. rewrite G.
      eexists. split; [reflexivity|]. exists e. split; auto. apply all2_refl. intros x Hx.
      eapply scalar_same; eauto. eapply all1_In; eauto.
    + assert (St : is_struct te = true).
      { unfold is_scalar, is_struct in *. cbn in Ke. destruct (t_kind te); auto; try discriminate; repeat destruct Ke as [Ke|Ke]; discriminate || contradiction. }
      rewrite St, (build_slice_eq _ _ t e te), Se, St by auto.
      destruct (copies_items v e te l Ge Ke IH T') as [ys [-> [L C]]].
      eexists. split; [reflexivity|]. intros Cp. cbn in Cp. rewrite G in Cp. destruct Cp as (e' & E' & Cp).
      rewrite E in E'. injection E' as <-. cbn. rewrite G. eexists. split; [reflexivity|]. exists e. auto.
  - assert (exists t, mget k (v_types v) = Some t /\ t_kind t = ListType) as [t [G S]].
    { cbn in T. destruct (mget k (v_types v)) as [t|]; [|contradiction]. exists t. split; auto.
      destruct (t_kind t); try contradiction; auto; destruct (t_element t); tauto. }
    assert (Pl : plain v t). { cbn in T. rewrite G, S in T. tauto. }
    destruct Pl as (e & te & E & Ge & Ke).
    assert (T' : link = true /\ match s with VNil => True | VSlice l => all1 (typed v e false) l | _ => False end).
    { cbn in T. rewrite G, S, E in T. tauto. }
    destruct T' as [-> T']. rewrite (copy_list_eq _ _ t e te), (build_list_eq _ _ t e te) by auto.
    destruct s as [| | |l| |]; try contradiction.
    + cbn. eexists. split; [reflexivity|]. rewrite G. intros (-> & -> & _). eexists. split; [reflexivity|]. exists e. auto.
    + destruct (copies_items v e te l Ge Ke (IHl l eq_refl) T') as [ys [-> [L C]]].
      eexists. split; [reflexivity|]. intros Cp. cbn in Cp. rewrite G in Cp. destruct Cp as (-> & -> & e' & E' & Cp).
      rewrite E in E'. injection E' as <-. cbn. rewrite G. eexists. split; [reflexivity|]. exists e. cbn. auto.
  - assert (exists t, mget k (v_types v) = Some t /\ t_kind t = MapType) as [t [G S]].
    { cbn in T. destruct (mget k (v_types v)) as [t|]; [|contradiction]. exists t. split; auto.
      destruct (t_kind t); try contradiction; auto; destruct (t_element t); tauto. }
    assert (Pl : plain v t). { cbn in T. rewrite G, S in T. tauto. }
    destruct Pl as (e & te & E & Ge & Ke).
    assert (T' : increasing (map fst l) /\ all1 (fun p => typed v e false (snd p)) l).
    { cbn in T. rewrite G, S, E in T. tauto. }
    destruct T' as [_ T']. destruct l as [|p0 l0] eqn:El.
    { assert (Ec : copy_value v k link (VMap []) = VNil).
      { cbn. unfold copy_item, build_item, type_at, elem_key. rewrite G, E, Ge. unfold is_scalar, is_struct, is_list. rewrite S. reflexivity. }
      rewrite Ec. assert (Ns : is_scalar t = false) by (unfold is_scalar; now rewrite S).
      destruct (nil_eq v k link t G Ns) as [_ ->]. eexists. split; [reflexivity|].
      intros Cp. cbn in Cp. rewrite G in Cp. destruct Cp. congruence. }
    rewrite <- El in *. assert (Nl : l <> []) by (rewrite El; discriminate). clear El p0 l0.
    rewrite (copy_map_eq _ _ _ t e te) by auto.
    destruct (is_scalar te) eqn:Se.
    + rewrite (build_map_eq _ _ _ t e te), Se by auto. eexists. split; [reflexivity|]. intros _. cbn. rewrite G.
      exists l. split; [reflexivity|]. split; [reflexivity|]. exists e. split; auto.
      apply (all2_snd (fun y x => same v e false x y)). apply all2_refl. intros x Hx.
      eapply scalar_same; eauto. exact (all1_In _ _ _ (all1_snd (typed v e false) _ T') Hx).
    + assert (St : is_struct te = true).
      { unfold is_scalar, is_struct in *. cbn in Ke. destruct (t_kind te); auto; try discriminate; repeat destruct Ke as [Ke|Ke]; discriminate || contradiction. }
      rewrite St, (build_map_eq _ _ _ t e te), Se, St, map_items by auto.
      destruct (copies_items v e te (map snd l) Ge Ke (Forall_snd _ _ IH) (all1_snd _ _ T')) as [ys [-> [L C]]].
      rewrite map_map. cbn [fst].
      eexists. split; [reflexivity|]. intros Cp. cbn in Cp. rewrite G in Cp. destruct Cp as (_ & e' & E' & Cp).
      rewrite E in E'. injection E' as <-. cbn. rewrite G. rewrite map_length in L.
      destruct (combine_fst (map fst l) ys) as [C1 C2]; [now rewrite map_length|].
      eexists. split; [reflexivity|]. split; [exact C1|]. exists e. split; auto.
      change (map (fun x => fst x) l) with (map (@fst string value) l). rewrite C2. apply (all2_snd (fun y x => same v e false x y)). apply C. apply (all1_snd (fun y => y <> VNil /\ copyable v e y)). exact Cp.
Qed.

Lemma typed_copied v k link x y : typed v k link y -> not_copied v k link x = false.
Proof.
  intros R. unfold not_copied, type_at, elem_key.
  assert (P : forall t, mget k (v_types v) = Some t -> In (t_kind t) [ListType; MapType] -> plain v t).
  { intros t G H. destruct y; cbn in R; rewrite G in R; destruct (t_kind t); simpl in H; try (intuition discriminate); tauto. }
  destruct (mget k (v_types v)) as [t|] eqn:G; auto. specialize (P t eq_refl).
  unfold is_list, is_map. destruct (t_kind t) eqn:K; cbn [kind_eqb andb orb]; try (match goal with |- context [mget ?a ?b] => destruct (mget a b) end; reflexivity).
  all: destruct P as (e & te & E & Ge & Ke); [simpl; auto|]; rewrite E, Ge.
  all: unfold is_scalar, is_struct; cbn in Ke; destruct (t_kind te); cbn; rewrite ?andb_false_r; auto;
    repeat destruct Ke as [Ke|Ke]; discriminate || contradiction.
Qed.

Lemma copied_fields v l p m : all2 (fun a y => typed v (a_type a) (a_link a) y) l m -> length p = length l ->
  zip_with (fun '(a, prev) x => if not_copied v (a_type a) (a_link a) x then prev else copy_value v (a_type a) (a_link a) x)
    (combine l p) m = copy_fields v l m.
Proof.
  unfold copy_fields. revert l p. induction m as [|x m IH]; intros l p T L.
  - reflexivity.
  - destruct l as [|a l], p as [|y p]; cbn in L; try discriminate; [reflexivity|].
    destruct T as [T1 T2]. cbn. rewrite (typed_copied v _ _ x x T1) by auto. apply f_equal. apply IH; auto.
Qed.

Lemma copy_build_object v t b o : structural t -> complete t b -> object_typed v t o ->
  exists p, build_object v t (copy_object v t b (Some o)) = Some p /\ (object_copyable v t o -> same_object v t o p).
Proof.
  intros S Cb (T1 & T2 & T3 & T4). cbn [copy_object]. rewrite copied_fields by auto.
  unfold build_object. cbn [o_fields o_bits o_id o_href].
  assert (F : Forall (copies v) (o_fields o)) by (apply Forall_forall; intros; now apply copy_build).
  destruct (copies_fields v t o (t_attrs t) (o_fields o) 0 F T4) as [ys [B C]].
  unfold build_fields in B. rewrite B. eexists. split; [reflexivity|]. intros Cp.
  unfold same_object. cbn [o_bits o_id o_href o_fields]. split; [reflexivity|].
  assert (W : (if is_class t then if is_class t then o_id o else o_id b else "") = o_id o /\
              (if is_class t then if is_class t then o_href o else o_href b else "") = o_href o).
  { unfold is_class. destruct S as [S|S]; rewrite S in *; cbn; auto. destruct T3 as [-> ->]; auto. }
  destruct W as [-> ->]. split; [auto|]. split; [auto|]. apply C, Cp.
Qed.
