(** Property theorems about the generated objects, builders and lists (C27 to C33). *)
From Coq Require Import Ascii String Bool Arith ZArith NArith Lia List.
From Verif Require Import GoStrings GoMap NamesModel ConceptsModel ReporterModel GoNamesModel GoTimeModel ObjectsModel ObjectsSpec
  ObjectsProofs ObjectsProofs2 ObjectsProofs3 ObjectsExamples.
Import ListNotations.
Local Open Scope string_scope.

(** C27 *)
Theorem C27_masks_are_distinct_bits : forall t i j, fits t -> i < length (t_attrs t) -> j < length (t_attrs t) ->
  (exists n, bit_mask t i = (2 ^ Z.of_nat n)%Z) /\
  (0 < bit_mask t i < 2 ^ Z.of_nat (slots t))%Z /\
  (i <> j -> Z.land (bit_mask t i) (bit_mask t j) = 0%Z).
Proof.
  exact (fun t i j F Li Lj => conj (ex_intro _ _ (fits_mask t i F Li)) (conj (mask_bounds t i F Li) (mask_disjoint t i j F Li Lj))).
Qed.
Print Assumptions C27_masks_are_distinct_bits.

Theorem C27_masks_avoid_reserved_bits : forall t i m, t_kind t = ClassType -> fits t -> i < length (t_attrs t) ->
  In m [1; 2; 4]%Z -> Z.land (bit_mask t i) m = 0%Z.
Proof. exact mask_not_reserved. Qed.
Print Assumptions C27_masks_avoid_reserved_bits.

Theorem C27_bitmap_is_wide_enough : forall t, structural t -> slots t <= 64 ->
  bitmap_type t = ((if Nat.leb (slots t) 32 then "uint32" else "uint64"), []).
Proof. exact bitmap_width. Qed.
Print Assumptions C27_bitmap_is_wide_enough.

Theorem C27_too_many_attributes_rejected : forall t, structural t ->
  (exists m, snd (bitmap_type t) = [err m]) <-> 64 < slots t.
Proof. exact bitmap_rejected. Qed.
Print Assumptions C27_too_many_attributes_rejected.

(** A type that uses the 64 bits is accepted, but the mask of the last attribute is a negative number,
    that the Go compiler rejects as a constant for the bitmap. *)
Theorem C27_accepted_masks_fit_refuted : exists t i, structural t /\ snd (bitmap_type t) = [] /\
  i < length (t_attrs t) /\ (bit_mask t i < 0)%Z.
Proof.
  exists (big ClassType 61), 60. split; [left; reflexivity|].
  split; [vm_compute; reflexivity|]. split; [apply Nat.ltb_lt; vm_compute; reflexivity|reflexivity].
Qed.
Print Assumptions C27_accepted_masks_fit_refuted.

Example C27_class : structural (big ClassType 60) /\ fits (big ClassType 60) /\ bit_mask (big ClassType 60) 2 = 32%Z /\
  bitmap_type (big ClassType 29) = ("uint32", []) /\ bitmap_type (big ClassType 30) = ("uint64", []) /\
  (exists m, snd (bitmap_type (big StructType 65)) = [err m]).
Proof.
  split; [left; reflexivity|]. split; [apply Nat.leb_le; vm_compute; reflexivity|].
  split; [reflexivity|]. split; [reflexivity|]. split; [reflexivity|]. eexists. reflexivity.
Qed.

(** C28 *)
Theorem C28_getters_of_present_attributes : forall v t i a (o : object) x, fits t -> nth_error (t_attrs t) i = Some a ->
  nth_error (o_fields o) i = Some x -> present t i o ->
  object_attr v t i a (Some o) = x /\ get_attr v t i a (Some o) = (x, true).
Proof. exact getter_present. Qed.
Print Assumptions C28_getters_of_present_attributes.

Theorem C28_getters_of_absent_attributes : forall v t i a (o : object) z, standard v -> fits t ->
  nth_error (t_attrs t) i = Some a -> zero_of v (a_type a) z -> ~ present t i o ->
  object_attr v t i a (Some o) = z /\ get_attr v t i a (Some o) = (z, false).
Proof. exact getter_absent. Qed.
Print Assumptions C28_getters_of_absent_attributes.

Theorem C28_getters_of_nil : forall v t i a z, standard v -> zero_of v (a_type a) z ->
  object_attr v t i a None = z /\ get_attr v t i a None = (z, false) /\
  object_id None = "" /\ get_id None = ("", false) /\ object_href None = "" /\ get_href None = ("", false) /\
  object_link None = false /\ object_kind t None = object_name t ++ "Nil".
Proof.
  exact (fun v t i a z S Z => match getter_nil v t i a z S Z with conj A B =>
    conj A (conj B (conj eq_refl (conj eq_refl (conj eq_refl (conj eq_refl (conj eq_refl eq_refl)))))) end).
Qed.
Print Assumptions C28_getters_of_nil.

Theorem C28_identifier_and_link : forall o : object,
  (has_id o -> object_id (Some o) = o_id o /\ get_id (Some o) = (o_id o, true)) /\
  (~ has_id o -> object_id (Some o) = "" /\ get_id (Some o) = ("", false)) /\
  (has_href o -> object_href (Some o) = o_href o /\ get_href (Some o) = (o_href o, true)) /\
  (~ has_href o -> object_href (Some o) = "" /\ get_href (Some o) = ("", false)).
Proof. exact id_getters. Qed.
Print Assumptions C28_identifier_and_link.

Theorem C28_kind : forall t (o : object),
  (is_link o -> object_link (Some o) = true /\ object_kind t (Some o) = object_name t ++ "Link") /\
  (~ is_link o -> object_link (Some o) = false /\ object_kind t (Some o) = object_name t).
Proof. exact kind_getter. Qed.
Print Assumptions C28_kind.

(** Every type has exactly one zero value, so the previous theorems apply to all the attributes. *)
Theorem C28_zero_values : forall v k t, standard v -> mget k (v_types v) = Some t -> t_kind t <> UndefinedType ->
  exists z, zero_of v k z /\ forall z', zero_of v k z' -> z' = z.
Proof.
  exact (fun v k t S G K => ex_intro _ _ (conj (proj1 (zero_exists v k t S G K))
    (fun z' Z => zero_fun v k z' _ Z (proj1 (zero_exists v k t S G K))))).
Qed.
Print Assumptions C28_zero_values.

Example C28_example : standard ex_v /\ fits ex_t /\
  map (fun i => snd (get_attr ex_v ex_t i (attr_at ex_t i) (Some ex_object))) (seq 0 14) =
    [true; true; true; true; true; true; true; true; true; true; false; false; true; true] /\
  get_attr ex_v ex_t 2 (attr_at ex_t 2) (Some ex_object) = (VScalar (SInt (-5)), true) /\
  get_attr ex_v ex_t 10 (attr_at ex_t 10) (Some ex_object) = (VScalar (SFloat 0), false) /\
  object_attr ex_v ex_t 13 (attr_at ex_t 13) None = VScalar (SDate zero_date) /\
  get_id (Some ex_object) = ("2", true) /\ object_kind ex_t (Some ex_child) = "ThingLink".
Proof.
  split; [exact ex_standard|]. split; [apply Nat.leb_le; vm_compute; reflexivity|]. vm_compute. auto 10.
Qed.

(** C29 *)
Theorem C29_setters_set_their_attribute : forall v t (b : object) i a x ta, complete t b -> fits t ->
  nth_error (t_attrs t) i = Some a -> mget (a_type a) (v_types v) = Some ta -> t_kind ta <> UndefinedType ->
  (present t i (apply_call v t b (CallSet i x)) <-> ~ clears v a x) /\
  exists y, stores v a x y /\ nth_error (o_fields (apply_call v t b (CallSet i x))) i = Some y.
Proof.
  exact (fun v t b i a x ta C F A G K => conj (set_present v t b i a x F A (ex_intro _ ta (conj G K))) (set_stores v t b i a x ta C F A G)).
Qed.
Print Assumptions C29_setters_set_their_attribute.

Theorem C29_setters_keep_the_rest : forall v t (b : object) i x, fits t ->
  (forall n, n <> reserved t + i -> marked n (apply_call v t b (CallSet i x)) <-> marked n b) /\
  (forall j, j <> i -> nth_error (o_fields (apply_call v t b (CallSet i x))) j = nth_error (o_fields b) j) /\
  o_id (apply_call v t b (CallSet i x)) = o_id b /\ o_href (apply_call v t b (CallSet i x)) = o_href b.
Proof.
  exact (fun v t b i x F => conj (fun n => marked_other v t b (CallSet i x) n F)
    (conj (fun j H => set_fields v t b i j x (fun E => H (eq_sym E))) (set_rest v t b i x))).
Qed.
Print Assumptions C29_setters_keep_the_rest.

Theorem C29_identifier_setters : forall v t (b : object) s,
  (has_id (apply_call v t b (CallID s)) /\ o_id (apply_call v t b (CallID s)) = s /\
   o_href (apply_call v t b (CallID s)) = o_href b /\ o_fields (apply_call v t b (CallID s)) = o_fields b /\
   (forall n, n <> 1 -> marked n (apply_call v t b (CallID s)) <-> marked n b)) /\
  (has_href (apply_call v t b (CallHREF s)) /\ o_href (apply_call v t b (CallHREF s)) = s /\
   o_id (apply_call v t b (CallHREF s)) = o_id b /\ o_fields (apply_call v t b (CallHREF s)) = o_fields b /\
   (forall n, n <> 2 -> marked n (apply_call v t b (CallHREF s)) <-> marked n b)) /\
  (is_link (apply_call v t b (CallLink true)) /\
   o_id (apply_call v t b (CallLink true)) = o_id b /\ o_href (apply_call v t b (CallLink true)) = o_href b /\
   o_fields (apply_call v t b (CallLink true)) = o_fields b /\
   (forall n, n <> 0 -> marked n (apply_call v t b (CallLink true)) <-> marked n b)).
Proof. exact id_setters. Qed.
Print Assumptions C29_identifier_setters.

(** Clearing the link flag sets it. *)
Theorem C29_link_false_refuted : exists v t b, complete t b /\ t_kind t = ClassType /\ ~ is_link b /\
  is_link (apply_call v t b (CallLink false)).
Proof.
  exists ex_v, ex_t, (new_builder ex_v ex_t). split; [vm_compute; reflexivity|].
  split; [vm_compute; reflexivity|]. split; [vm_compute; discriminate|vm_compute; reflexivity].
Qed.
Print Assumptions C29_link_false_refuted.

(** The setter of a list with the link flag makes the attribute present also when it is given nil. *)
Theorem C29_nil_list_absent_refuted : exists v t b i a, complete t b /\ fits t /\ nth_error (t_attrs t) i = Some a /\
  a_link a = true /\ present t i (apply_call v t b (CallSet i VNil)).
Proof.
  exists ex_v, ex_t, (new_builder ex_v ex_t), 1, (attr_at ex_t 1). split; [vm_compute; reflexivity|].
  split; [apply Nat.leb_le; vm_compute; reflexivity|]. vm_compute. auto.
Qed.
Print Assumptions C29_nil_list_absent_refuted.

Example C29_example :
  let b := apply_call ex_v ex_t ex_builder (CallSet 7 VNil) in
  complete ex_t ex_builder /\ fits ex_t /\ present ex_t 7 ex_builder /\ ~ present ex_t 7 b /\ present ex_t 6 b /\ clears ex_v (attr_at ex_t 7) VNil.
Proof.
  split; [vm_compute; reflexivity|]. split; [apply Nat.leb_le; vm_compute; reflexivity|].
  split; [vm_compute; reflexivity|]. split; [vm_compute; discriminate|]. split; [vm_compute; reflexivity|].
  eexists. split; [vm_compute; reflexivity|]. vm_compute. auto.
Qed.

(** C30 *)
Theorem C30_last_call_wins : forall v t l (p : object) i a z,
  standard v -> fits t -> structural t -> known v t -> Forall (valid_call v t) l ->
  build_object v t (apply_calls v t (new_builder v t) l) = Some p ->
  nth_error (t_attrs t) i = Some a -> zero_of v (a_type a) z ->
  (last_call (sets i) l None -> get_attr v t i a (Some p) = (z, false)) /\
  (forall x, last_call (sets i) l (Some x) -> clears v a x -> get_attr v t i a (Some p) = (VNil, false)) /\
  (forall x, last_call (sets i) l (Some x) -> ~ clears v a x ->
     exists y r, stores v a x y /\ built v (a_type a) (a_link a) y r /\ get_attr v t i a (Some p) = (r, true)).
Proof. exact (fun v t l p i a z S F T K V => sequence_attr v t l S F T K V p i a z). Qed.
Print Assumptions C30_last_call_wins.

Theorem C30_last_identifier_wins : forall v t l (p : object),
  standard v -> fits t -> t_kind t = ClassType -> known v t -> Forall (valid_call v t) l ->
  build_object v t (apply_calls v t (new_builder v t) l) = Some p ->
  (last_call sets_id l None -> get_id (Some p) = ("", false)) /\
  (forall s, last_call sets_id l (Some (VScalar (SString s))) -> get_id (Some p) = (s, true)) /\
  (last_call sets_href l None -> get_href (Some p) = ("", false)) /\
  (forall s, last_call sets_href l (Some (VScalar (SString s))) -> get_href (Some p) = (s, true)) /\
  (last_call sets_link l None -> object_link (Some p) = false) /\
  (last_call sets_link l (Some (VScalar (SBool true))) -> object_link (Some p) = true).
Proof. exact (fun v t l p S F C K V => sequence_rest v t l S F (or_introl C) K V p C). Qed.
Print Assumptions C30_last_identifier_wins.

Theorem C30_last_call_is_unique : forall f l, exists r, last_call f l r /\ forall r', last_call f l r' -> r' = r.
Proof.
  exact (fun f l => match last_call_exists f l with ex_intro _ r H => ex_intro _ r (conj H (fun r' H' => last_call_fun f l r' r H' H)) end).
Qed.
Print Assumptions C30_last_call_is_unique.

Theorem C30_build_succeeds : forall v t l, standard v -> fits t -> structural t -> known v t ->
  Forall (valid_call v t) l -> Forall call_no_nil l ->
  exists p, build_object v t (apply_calls v t (new_builder v t) l) = Some p.
Proof. exact (fun v t l S F T K V => sequence_builds v t l S F T K V). Qed.
Print Assumptions C30_build_succeeds.

(** Building a list that contains a nil builder panics. *)
Theorem C30_build_total_refuted : exists v t l, standard v /\ fits t /\ structural t /\ known v t /\
  Forall (valid_call v t) l /\ build_object v t (apply_calls v t (new_builder v t) l) = None.
Proof.
  exists ex_v, ex_t, [CallSet 8 (VSlice [VNil])]. split; [exact ex_standard|].
  split; [apply Nat.leb_le; vm_compute; reflexivity|]. split; [left; vm_compute; reflexivity|].
  split; [exact ex_known|]. split; [apply valid_callb_sound; vm_compute; reflexivity|vm_compute; reflexivity].
Qed.
Print Assumptions C30_build_total_refuted.

Example C30_example : standard ex_v /\ fits ex_t /\ structural ex_t /\ known ex_v ex_t /\
  Forall (valid_call ex_v ex_t) ex_calls /\ build_object ex_v ex_t ex_builder = Some ex_object /\
  get_id (Some ex_object) = ("2", true) /\
  get_attr ex_v ex_t 6 (attr_at ex_t 6) (Some ex_object) = (VScalar (SString "b"), true).
Proof.
  split; [exact ex_standard|]. split; [apply Nat.leb_le; vm_compute; reflexivity|].
  split; [left; vm_compute; reflexivity|]. split; [exact ex_known|]. split; [exact ex_calls_valid|].
  vm_compute. auto.
Qed.

(** C31 *)
Theorem C31_copy_and_build : forall v t b o, structural t -> complete t b -> object_typed v t o -> object_copyable v t o ->
  exists p, build_object v t (copy_object v t b (Some o)) = Some p /\ same_object v t o p.
Proof.
  exact (fun v t b o S C T Cp => match copy_build_object v t b o S C T with
    ex_intro _ p (conj B H) => ex_intro _ p (conj B (H Cp)) end).
Qed.
Print Assumptions C31_copy_and_build.

(** What the relation between both objects means for the getters. *)
Theorem C31_same_objects : forall v t (o p : object), structural t -> standard v -> known v t -> fits t -> same_object v t o p ->
  object_link (Some p) = object_link (Some o) /\ get_id (Some p) = get_id (Some o) /\
  get_href (Some p) = get_href (Some o) /\ object_empty t (Some p) = object_empty t (Some o) /\
  forall i a, nth_error (t_attrs t) i = Some a ->
    snd (get_attr v t i a (Some p)) = snd (get_attr v t i a (Some o)) /\
    match fst (get_attr v t i a (Some o)) with
    | VScalar s => fst (get_attr v t i a (Some p)) = VScalar s
    | VNil => fst (get_attr v t i a (Some p)) = VNil
    | x => same v (a_type a) (a_link a) x (fst (get_attr v t i a (Some p)))
    end.
Proof. exact same_getters. Qed.
Print Assumptions C31_same_objects.

Theorem C31_copy_discards_previous_values : forall v t b b' o, object_typed v t o -> complete t b -> complete t b' ->
  (t_kind t = StructType -> o_id b = "" /\ o_href b = "" /\ o_id b' = "" /\ o_href b' = "") -> structural t ->
  copy_object v t b (Some o) = copy_object v t b' (Some o).
Proof. exact copy_discards. Qed.
Print Assumptions C31_copy_discards_previous_values.

(** Copying never makes Build panic, whatever the object contains. *)
Theorem C31_copy_and_build_succeeds : forall v t b o, structural t -> complete t b -> object_typed v t o ->
  exists p, build_object v t (copy_object v t b (Some o)) = Some p.
Proof.
  exact (fun v t b o S C T => match copy_build_object v t b o S C T with
    ex_intro _ p (conj B _) => ex_intro _ p B end).
Qed.
Print Assumptions C31_copy_and_build_succeeds.

(** An empty map becomes a nil map, but the attribute stays present. *)
Theorem C31_empty_map_refuted : exists v t b o p i a, structural t /\ complete t b /\ object_typed v t o /\
  nth_error (t_attrs t) i = Some a /\ get_attr v t i a (Some o) = (VMap [], true) /\
  build_object v t (copy_object v t b (Some o)) = Some p /\ get_attr v t i a (Some p) = (VNil, true).
Proof.
  exists ex_v, ex_t, (new_builder ex_v ex_t), (apply_calls ex_v ex_t (new_builder ex_v ex_t) [CallSet 4 (VMap [])]).
  eexists. exists 4. eexists. split; [left; vm_compute; reflexivity|]. split; [vm_compute; reflexivity|].
  split; [apply object_typedb_sound; vm_compute; reflexivity|]. split; [vm_compute; reflexivity|].
  split; [vm_compute; reflexivity|]. split; vm_compute; reflexivity.
Qed.
Print Assumptions C31_empty_map_refuted.

(** The link of a list is lost. *)
Theorem C31_list_link_refuted : exists v t b o p i a s, structural t /\ complete t b /\ object_typed v t o /\
  nth_error (t_attrs t) i = Some a /\ get_attr v t i a (Some o) = (VList "/api" true s, true) /\
  build_object v t (copy_object v t b (Some o)) = Some p /\ exists s', get_attr v t i a (Some p) = (VList "" false s', true).
Proof.
  exists ex_v, ex_t, (new_builder ex_v ex_t), (apply_calls ex_v ex_t (new_builder ex_v ex_t) [CallSet 1 (VList "/api" true VNil)]).
  eexists. exists 1. eexists. eexists. split; [left; vm_compute; reflexivity|]. split; [vm_compute; reflexivity|].
  split; [apply object_typedb_sound; vm_compute; reflexivity|]. split; [vm_compute; reflexivity|].
  split; [vm_compute; reflexivity|]. split; [vm_compute; reflexivity|]. eexists. vm_compute; reflexivity.
Qed.
Print Assumptions C31_list_link_refuted.

(** A nil element of a list becomes an empty object. *)
Theorem C31_nil_element_refuted : exists v t b o p i a q, structural t /\ complete t b /\ object_typed v t o /\
  nth_error (t_attrs t) i = Some a /\ get_attr v t i a (Some o) = (VSlice [VNil], true) /\
  build_object v t (copy_object v t b (Some o)) = Some p /\ get_attr v t i a (Some p) = (VSlice [VObject q], true).
Proof.
  exists ex_v, ex_t, (new_builder ex_v ex_t), (apply_calls ex_v ex_t (new_builder ex_v ex_t) [CallSet 8 (VSlice [VNil])]).
  eexists. exists 8. eexists. eexists. split; [left; vm_compute; reflexivity|]. split; [vm_compute; reflexivity|].
  split; [apply object_typedb_sound; vm_compute; reflexivity|]. split; [vm_compute; reflexivity|].
  split; [vm_compute; reflexivity|]. split; vm_compute; reflexivity.
Qed.
Print Assumptions C31_nil_element_refuted.

(** Copying nil keeps the previous values. *)
Theorem C31_copy_of_nil_refuted : exists v t b, complete t b /\ structural t /\
  copy_object v t b None <> copy_object v t (new_builder v t) None.
Proof.
  exists ex_v, ex_t, ex_builder. split; [vm_compute; reflexivity|]. split; [left; vm_compute; reflexivity|].
  intros H. apply (f_equal o_id) in H. vm_compute in H. discriminate.
Qed.
Print Assumptions C31_copy_of_nil_refuted.

Example C31_example : structural ex_t /\ complete ex_t ex_builder /\ object_typed ex_v ex_t ex_object /\
  object_copyable ex_v ex_t ex_object /\
  build_object ex_v ex_t (copy_object ex_v ex_t ex_child (Some ex_object)) = Some ex_object.
Proof.
  split; [left; vm_compute; reflexivity|]. split; [vm_compute; reflexivity|]. split; [exact ex_object_typed|].
  split; [|vm_compute; reflexivity]. exact ex_object_copyable.
Qed.

(** C32 *)
Theorem C32_empty_objects : forall t (o : object), structural t -> bounded t o ->
  object_empty t (Some o) = true <->
  ((forall i, i < length (t_attrs t) -> ~ present t i o) /\ (t_kind t = ClassType -> ~ has_id o /\ ~ has_href o)).
Proof. exact empty_spec. Qed.
Print Assumptions C32_empty_objects.

Theorem C32_empty_lists : forall l,
  list_empty l = true <-> (l = None \/ exists h b, l = Some (MkList h b None) \/ l = Some (MkList h b (Some []))).
Proof. exact list_empty_spec. Qed.
Print Assumptions C32_empty_lists.

(** Objects of both generated forms stay inside of the slots of their type, so the theorem applies. *)
Theorem C32_built_objects_are_bounded : forall v t l (p : object), standard v -> fits t -> structural t -> known v t ->
  Forall (valid_call v t) l -> build_object v t (apply_calls v t (new_builder v t) l) = Some p -> bounded t p.
Proof. exact built_bounded. Qed.
Print Assumptions C32_built_objects_are_bounded.

Example C32_example : object_empty ex_t None = true /\ object_empty ex_t (Some ex_object) = false /\
  object_empty ex_t (Some (apply_call ex_v ex_t (new_builder ex_v ex_t) (CallLink true))) = true /\
  bounded ex_t ex_object /\ object_empty ex_n (Some (new_builder ex_v ex_n)) = true.
Proof.
  split; [reflexivity|]. split; [vm_compute; reflexivity|]. split; [vm_compute; reflexivity|].
  split; [apply bounded_lt; vm_compute; reflexivity|vm_compute; reflexivity].
Qed.

(** C33 *)
Theorem C33_get_and_slice : forall l i,
  list_len l = length (list_slice l) /\
  ((0 <= i < Z.of_nat (list_len l))%Z -> nth_error (list_slice l) (Z.to_nat i) = Some (list_get i l)) /\
  (~ (0 <= i < Z.of_nat (list_len l))%Z -> list_get i l = VNil) /\
  (forall h b m, l = Some (MkList h b (Some m)) -> list_slice l = m) /\
  (list_empty l = true <-> list_len l = 0).
Proof. exact list_accessors. Qed.
Print Assumptions C33_get_and_slice.

Theorem C33_each : forall (S : Type) (f : S -> value -> S * bool) s l r,
  visits f s (list_slice l) r <-> r = list_each f s l.
Proof. exact @each_spec. Qed.
Print Assumptions C33_each.

Theorem C33_range : forall (S : Type) (f : S -> nat -> value -> S * bool) s l r,
  visits (fun s p => f s (fst p) (snd p)) s (combine (seq 0 (list_len l)) (list_slice l)) r <-> r = list_range f s l.
Proof. exact @range_spec. Qed.
Print Assumptions C33_range.

Theorem C33_list_properties : forall t h b m s,
  let l := MkList h b m in
  list_href (Some l) = h /\ list_link (Some l) = b /\ list_items (Some l) = m /\
  get_list_href (Some l) = (h, negb (String.eqb h "")) /\
  list_kind t (Some l) = object_name t ++ (if b then "ListLink" else "List") /\
  list_kind t None = object_name t ++ "ListNil" /\
  list_href None = "" /\ get_list_href None = ("", false) /\ list_link None = false /\ list_items None = None /\
  list_href (Some (set_href s l)) = s /\ list_link (Some (set_href s l)) = b /\ list_items (Some (set_href s l)) = m.
Proof. exact list_properties. Qed.
Print Assumptions C33_list_properties.

Theorem C33_list_setters : forall h b m b' m',
  let l := MkList h b m in
  list_href (Some (set_link b' l)) = h /\ list_link (Some (set_link b' l)) = b' /\ list_items (Some (set_link b' l)) = m /\
  list_href (Some (set_items m' l)) = h /\ list_link (Some (set_items m' l)) = b /\ list_items (Some (set_items m' l)) = m'.
Proof. exact (fun h b m b' m' => conj eq_refl (conj eq_refl (conj eq_refl (conj eq_refl (conj eq_refl eq_refl))))). Qed.
Print Assumptions C33_list_setters.

Example C33_example :
  let l := Some (MkList "" false (Some [VScalar (SInt 1); VScalar (SInt 2); VScalar (SInt 3)])) in
  list_len l = 3 /\ list_get 1 l = VScalar (SInt 2) /\ list_get (-1) l = VNil /\ list_get 3 l = VNil /\
  list_each (fun s x => (x :: s, Nat.ltb (length s) 1)) [] l = [VScalar (SInt 2); VScalar (SInt 1)] /\
  list_range (fun s i x => ((i, x) :: s, true)) [] l = [(2, VScalar (SInt 3)); (1, VScalar (SInt 2)); (0, VScalar (SInt 1))].
Proof. vm_compute. auto 10. Qed.
