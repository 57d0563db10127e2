(** Properties of the memory used by objects, builders and lists. *)
From Coq Require Import Ascii String Bool Arith ZArith NArith Lia List.
From Verif Require Import GoStrings GoMap NamesModel NamesSpec ConceptsModel ConceptsSpec ChecksModel GoTimeModel ObjectsModel ObjectsSpec ObjectsProofs2 ObjectsExamples
  HeapModel HeapSpec HeapProofs HeapProofs2 HeapProofs3 HeapExamples.
Import ListNotations.
Local Open Scope string_scope.

(** The setters do the same with memory as with values; the builder then uses the memory that it used before, the memory of
    the argument and new memory, and no other builder, list, slice or map is changed. *)
Theorem C29_setters_in_memory : forall v t P a m b,
  holds_builder P m a b ->
  (forall c rc, same_call c rc -> holds_builder P (call_ref v t a rc m) a (apply_call v t b c)) /\
  (forall Q i x r, valid_call v t (CallSet i x) -> ~ Q a -> holds Q m r x ->
     holds_builder (fun p => P p \/ Q p \/ between m (call_ref v t a (RefSet i r) m) p) (call_ref v t a (RefSet i r) m) a (apply_call v t b (CallSet i x))) /\
  (forall rc R s x, ~ R a -> holds R m s x -> holds R (call_ref v t a rc m) s x).
Proof. exact setters_in_memory. Qed.
Print Assumptions C29_setters_in_memory.

Example C29_memory_example :
  holds_builder (fun p => p < builder_address ex_builder) (builder_memory ex_builder) (builder_address ex_builder) ex_builder /\
  valid_call ex_v ex_t (CallSet 6 (VScalar (SString "c"))).
Proof. split; [apply builder_memory_ok|]. apply heap_call_valid. Qed.

(** The setters of lists of scalars copy the values, so later changes to the slice given don't change the builder. *)
Theorem C29_variadic_arguments : forall v t P Q a m b i x r y ty e te,
  nth_error (t_attrs t) i = Some y -> typed v (a_type y) (a_link y) x ->
  mget (a_type y) (v_types v) = Some ty -> t_kind ty = ListType -> a_link y = false ->
  t_element ty = Some e -> mget e (v_types v) = Some te -> In (t_kind te) [ScalarType; EnumType; InterfaceType] ->
  holds_builder P m a b -> holds Q m r x ->
  let m' := call_ref v t a (RefSet i r) m in
  holds_builder (fun p => P p \/ between m m' p) m' a (apply_call v t b (CallSet i x)) /\
  forall fuel l m'', perform_all fuel v l m' = Done m'' -> avoids l (fun p => p = a \/ P p \/ between m m' p) ->
    holds_builder (fun p => P p \/ between m m' p) m'' a (apply_call v t b (CallSet i x)).
Proof. exact variadic_arguments. Qed.
Print Assumptions C29_variadic_arguments.

Example C29_variadic_example : exists y ty te,
  nth_error (t_attrs ex_t) 12 = Some y /\ typed ex_v (a_type y) (a_link y) (VSlice [VScalar (SString "x")]) /\
  mget (a_type y) (v_types ex_v) = Some ty /\ t_kind ty = ListType /\ a_link y = false /\
  t_element ty = Some "string" /\ mget "string" (v_types ex_v) = Some te /\ t_kind te = ScalarType.
Proof. exact variadic_example. Qed.

(** Maps aren't copied: changing the map given to the setter changes the builder. *)
Theorem C29_map_arguments_refuted : exists v t i m a p m1 b1 b2 c,
  known v t /\ standard v /\ holds_builder (fun q => q <> a) m a (new_builder v t) /\ a <> p /\
  m1 = call_ref v t a (RefSet i (RPtr p)) m /\
  holds_builder (fun q => q <> a) m1 a b1 /\ holds_builder (fun q => q <> a) (store p c m1) a b2 /\
  get_attr v t i (attr_at t i) (Some b1) = (VMap [("k", VScalar (SString "v"))], true) /\
  get_attr v t i (attr_at t i) (Some b2) = (VMap [("k", VScalar (SString "w"))], true).
Proof. exact map_arguments. Qed.
Print Assumptions C29_map_arguments_refuted.

(** [Build] does the same with memory as with values; the object is in new memory, so that nothing that is done to other
    memory (the builder, what was given to its setters, other objects or builders) changes the object. *)
Theorem C30_built_objects_are_independent : forall v t P fuel a m b,
  structural t -> object_typed v t b -> holds_builder P m a b -> depth (VObject b) <= fuel ->
  match build_object v t b with
  | None => build_at fuel v t a m = Panics
  | Some p =>
      exists m' r, build_at fuel v t a m = Done (m', r) /\ extends m m' /\ holds (between m m') m' r (VObject p) /\ holds_builder P m' a b /\
        forall fuel' l m'', perform_all fuel' v l m' = Done m'' -> avoids l (between m m') -> holds (between m m') m'' r (VObject p)
  end.
Proof. exact build_independent. Qed.
Print Assumptions C30_built_objects_are_independent.

Example C30_memory_example :
  structural ex_t /\ object_typed ex_v ex_t ex_builder /\
  holds_builder (fun p => p < builder_address ex_builder) (builder_memory ex_builder) (builder_address ex_builder) ex_builder /\
  depth (VObject ex_builder) <= 9 /\ build_object ex_v ex_t ex_builder <> None /\
  exists m', build_at 9 ex_v ex_t (builder_address ex_builder) (builder_memory ex_builder) = Done (m', RPtr (length m' - 1)) /\
    let a := builder_address ex_builder in
    let l := [Call ex_t a (RefSet 6 (RScalar (SString "changed"))); Call ex_t a (RefSet 4 RNil); CopyTo ex_t a (RPtr (length m' - 1)); BuildFrom ex_t a] in
    avoids l (between (builder_memory ex_builder) m') /\ exists m'', perform_all 9 ex_v l m' = Done m''.
Proof. exact build_memory_example. Qed.

(** [Copy] does the same with memory as with values; afterwards the builder doesn't share memory with the object, so changing
    one of them doesn't change the other. *)
Theorem C31_copies_are_independent : forall v t P Q fuel a r m b o,
  structural t -> object_typed v t b -> object_typed v t o ->
  holds_builder Q m a b -> ~ P a -> holds P m r (VObject o) -> depth (VObject o) <= fuel ->
  exists m', copy_at fuel v t a r m = Done m' /\
    holds_builder (between m m') m' a (copy_object v t b (Some o)) /\ holds P m' r (VObject o) /\
    (forall fuel' l m'', perform_all fuel' v l m' = Done m'' -> avoids l P -> holds P m'' r (VObject o)) /\
    (forall fuel' l m'', perform_all fuel' v l m' = Done m'' -> avoids l (fun p => p = a \/ between m m' p) ->
       holds_builder (between m m') m'' a (copy_object v t b (Some o))).
Proof. exact copy_independent. Qed.
Print Assumptions C31_copies_are_independent.

Example C31_memory_example :
  let m := builder_memory ex_builder in
  let m1 := fst (put (VObject ex_object) m) in
  object_typed ex_v ex_t ex_builder /\ object_typed ex_v ex_t ex_object /\
  holds_builder (fun p => p < builder_address ex_builder) m1 (builder_address ex_builder) ex_builder /\
  ~ (length m <= builder_address ex_builder) /\ holds (fun p => length m <= p) m1 (snd (put (VObject ex_object) m)) (VObject ex_object).
Proof. exact copy_memory_example. Qed.

(** [Slice] returns a new slice with all the items: changing it doesn't change the list. *)
Theorem C33_slices_are_independent : forall P m r h b s,
  holds P m r (VList h b s) -> s = VNil \/ (exists l, s = VSlice l) ->
  exists m' a rs, slice_at r m = (m', RPtr a) /\ a = length m /\ nth_error m' a = Some (CSlice rs) /\
    all2 (holds P m') rs (list_slice (Some (MkList h b (match s with VSlice l => Some l | _ => None end)))) /\ extends m m' /\
    forall fuel v l m'', perform_all fuel v l m' = Done m'' -> avoids l (fun p => P p /\ p <> a) -> holds P m'' r (VList h b s).
Proof. exact slice_ok. Qed.
Print Assumptions C33_slices_are_independent.

Example C33_memory_example :
  let '(m, r) := put (VList "/api" true (VSlice [VObject ex_child; VNil])) [] in
  holds (fun _ => True) m r (VList "/api" true (VSlice [VObject ex_child; VNil])) /\
  avoids [Assign (length m) (CSlice [RNil; RNil])] (fun p => True /\ p <> length m).
Proof. exact slice_memory_example. Qed.

(** The setters of a list change what they say and nothing else. *)
Theorem C33_list_setters_in_memory : forall (P Q : nat -> Prop) m a h b s rs link href s' rs',
  ~ Q a -> P a -> (forall p, Q p -> P p) -> nth_error m a = Some (CList h b rs) -> holds Q m rs s -> holds Q m rs' s' ->
  holds P (set_link_at link a m) (RPtr a) (VList h link s) /\ holds P (set_href_at href a m) (RPtr a) (VList href b s) /\
  holds P (set_items_at rs' a m) (RPtr a) (VList h b s') /\
  forall fuel v m', perform fuel v (SetList a link href rs') m = Done m' ->
    holds P m' (RPtr a) (VList href link s') /\ forall R r x, ~ R a -> holds R m r x -> holds R m' r x.
Proof. exact list_setters. Qed.
Print Assumptions C33_list_setters_in_memory.

Example C33_list_setters_example :
  let m := [CSlice [RScalar (SString "a")]; CSlice [RNil]; CList "/api" true (RPtr 0)] in
  let Q := fun p => p < 2 in
  ~ Q 2 /\ nth_error m 2 = Some (CList "/api" true (RPtr 0)) /\ holds Q m (RPtr 0) (VSlice [VScalar (SString "a")]) /\ holds Q m (RPtr 1) (VSlice [VNil]) /\
  perform 1 (new_version (nm "V1")) (SetList 2 false "/x" (RPtr 1)) m =
    Done [CSlice [RScalar (SString "a")]; CSlice [RNil]; CList "/x" false (RPtr 1)].
Proof.
  cbv zeta. split; [lia|]. split; [reflexivity|]. split.
  - exists 0, [RScalar (SString "a")]. split; [reflexivity|]. split; [lia|]. split; [reflexivity|]. cbn. auto.
  - split; [|reflexivity]. exists 1, [RNil]. split; [reflexivity|]. split; [lia|]. split; [reflexivity|]. cbn. auto.
Qed.

(** [Items] doesn't: changing what it returns changes the list. *)
Theorem C33_items_are_shared_refuted : exists m r p l1 l2 c,
  holds (fun _ => True) m r (VList "" false (VSlice l1)) /\ items_at r m = RPtr p /\
  holds (fun _ => True) (store p c m) r (VList "" false (VSlice l2)) /\ l1 <> l2.
Proof. exact items_are_shared. Qed.
Print Assumptions C33_items_are_shared_refuted.
