(** Property theorems about the JSON support (C34 to C37). *)
From Coq Require Import Ascii String Bool Arith ZArith NArith Lia Permutation List.
From Verif Require Import GoStrings GoMap NamesModel ConceptsModel BindingModel GoNamesModel GoTimeModel ObjectsModel ObjectsSpec
  ObjectsExamples JsonModel JsonSpec JsonProofs JsonProofs4 JsonProofs5 JsonProofs6 JsonProofs7 JsonProofs8 JsonExamples.
Import ListNotations.
Local Open Scope string_scope.

(** C34 *)
Theorem C34_objects_are_well_formed_documents : forall o v t b l,
  standard v -> compiles v -> faithful o -> structural t -> fits t -> object_typed v t b ->
  marshal_object o v t (Some b) = WOk l ->
  exists j, l = tokens j /\ well_formed j /\ shows_object o v t b j.
Proof. exact object_document. Qed.
Print Assumptions C34_objects_are_well_formed_documents.

Theorem C34_objects_are_written : forall o v t b,
  standard v -> compiles v -> faithful o -> structural t -> fits t -> object_typed v t b ->
  (exists l, marshal_object o v t (Some b) = WOk l) <-> object_printable o v t b.
Proof. exact (fun o v t b S C Fa => object_succeeds o v S C Fa t b). Qed.
Print Assumptions C34_objects_are_written.

Theorem C34_lists_are_well_formed_documents : forall o v t e l r,
  standard v -> compiles v -> faithful o -> plain v t -> t_element t = Some e -> all1 (typed v e false) l ->
  marshal_list o v e l = WOk r ->
  exists m, r = tokens (JArr m) /\ well_formed (JArr m) /\ all2 (fun y x => shows o v e x y) m l.
Proof. exact list_document. Qed.
Print Assumptions C34_lists_are_well_formed_documents.

Theorem C34_lists_are_written : forall o v t e l,
  standard v -> compiles v -> faithful o -> plain v t -> t_element t = Some e -> all1 (typed v e false) l ->
  (exists r, marshal_list o v e l = WOk r) <-> all1 (fun y => y <> VNil /\ printable o v e y) l.
Proof. exact (fun o v t e l S C Fa => list_succeeds o v S C Fa t e l). Qed.
Print Assumptions C34_lists_are_written.

Theorem C34_metadata_is_written : forall m, marshal_metadata m =
  WOk (tokens (JObj (if N.testbit (fst m) 0 then [("server_version", JStr (snd m))] else []))).
Proof. exact metadata_written. Qed.
Print Assumptions C34_metadata_is_written.

(** Writing a list with a nil element panics. *)
Theorem C34_nil_elements_refuted : exists o v t e l, standard v /\ compiles v /\ faithful o /\ plain v t /\ t_element t = Some e /\
  all1 (typed v e false) l /\ marshal_list o v e l = WPanic.
Proof.
  exists ex_oracle, ex_v, ex_l, "thing", [VObject ex_object; VNil]. split; [exact ex_standard|]. split; [exact ex_compiles|].
  split; [exact ex_faithful|]. split; [exact ex_plain|]. split; [exact ex_element|].
  split; [split; [exact (proj1 ex_items_typed)|split; [apply typedb_sound; vm_compute; reflexivity|exact I]]|]. vm_compute. reflexivity.
Qed.
Print Assumptions C34_nil_elements_refuted.

Example C34_object : faithful ex_oracle /\ standard ex_v /\ compiles ex_v /\ structural ex_t /\ fits ex_t /\
  object_typed ex_v ex_t ex_object /\ object_printable ex_oracle ex_v ex_t ex_object /\
  firstn 8 ex_tokens = [TLBrace; TStr "kind"; TColon; TStr "Thing"; TComma; TStr "id"; TColon; TStr "2"].
Proof.
  exact (conj ex_faithful (conj ex_standard (conj ex_compiles (conj ex_structural (conj ex_fits (conj ex_object_typed (conj ex_printable
    eq_refl))))))).
Qed.
Example C34_list : plain ex_v ex_l /\ t_element ex_l = Some "thing" /\ all1 (typed ex_v "thing" false) ex_items /\
  marshal_list ex_oracle ex_v "thing" ex_items = WOk ex_items_tokens.
Proof. exact (conj ex_plain (conj ex_element (conj ex_items_typed ex_items_written))). Qed.

(** C35 *)
Theorem C35_objects_round_trip : forall o v t b l,
  standard v -> compiles v -> faithful o -> structural t -> fits t -> tagged t -> object_typed v t b -> object_lossless v t b ->
  marshal_object o v t (Some b) = WOk l ->
  exists r, unmarshal_object o v t l = Ok r [] /\ same_object v t b r.
Proof. exact (fun o v t b l S C Fa => object_round_trip o v S C Fa t b l). Qed.
Print Assumptions C35_objects_round_trip.

Theorem C35_lists_round_trip : forall o v t e l r,
  standard v -> compiles v -> faithful o -> plain v t -> t_element t = Some e -> all1 (typed v e false) l ->
  all1 (fun y => y <> VNil /\ printable o v e y) l -> all1 (lossless v e) l ->
  marshal_list o v e l = WOk r ->
  exists m, unmarshal_list o v e r = Ok m [] /\ all2 (fun y x => same v e false x y) m l.
Proof. exact (fun o v t e l r S C Fa => list_round_trip o v S C Fa t e l r). Qed.
Print Assumptions C35_lists_round_trip.

Theorem C35_metadata_round_trips : forall m l, marshal_metadata m = WOk l ->
  exists r, unmarshal_metadata l = Ok r [] /\ N.testbit (fst r) 0 = N.testbit (fst m) 0 /\
    (N.testbit (fst m) 0 = true -> snd r = snd m).
Proof. exact metadata_back. Qed.
Print Assumptions C35_metadata_round_trips.

(** The fraction of the seconds of a date is lost. *)
Theorem C35_fractions_of_seconds_refuted : exists o v t b d, changes o v t b 13 /\ nth_error (o_fields b) 13 = Some (VScalar (SDate d)).
Proof.
  exists ex_oracle, ex_v, ex_t, ex_dated, (MkDate 2024 2 29 10 20 30 5 0). split; [exact ex_dated_changes|]. vm_compute. reflexivity.
Qed.
Print Assumptions C35_fractions_of_seconds_refuted.

(** The link of a list is lost. *)
Theorem C35_links_of_lists_refuted : exists o v t b s, changes o v t b 1 /\ nth_error (o_fields b) 1 = Some (VList "/children" true s).
Proof. exists ex_oracle, ex_v, ex_t, ex_linked, VNil. split; [exact ex_linked_changes|]. vm_compute. reflexivity. Qed.
Print Assumptions C35_links_of_lists_refuted.

(** Attributes that are present but nil are absent after the round trip. *)
Theorem C35_nil_attributes_refuted : exists o v t b, changes o v t b 1 /\ nth_error (o_fields b) 1 = Some VNil.
Proof. exists ex_oracle, ex_v, ex_t, ex_absent. split; [exact ex_absent_changes|]. vm_compute. reflexivity. Qed.
Print Assumptions C35_nil_attributes_refuted.

(** Maps with an empty key are written, but they can't be read. *)
Theorem C35_empty_keys_refuted : exists o v t b l, faithful o /\ standard v /\ compiles v /\ structural t /\ fits t /\ tagged t /\
  object_typed v t b /\ marshal_object o v t (Some b) = WOk l /\ unmarshal_object o v t l = Failed.
Proof.
  exists ex_oracle, ex_v, ex_t, ex_keyed, ex_keyed_tokens.
  exact (conj ex_faithful (conj ex_standard (conj ex_compiles
    (conj ex_structural (conj ex_fits (conj ex_tagged (conj ex_keyed_typed (conj ex_keyed_written ex_keyed_fails)))))))).
Qed.
Print Assumptions C35_empty_keys_refuted.

Example C35_object : tagged ex_t /\ object_lossless ex_v ex_t ex_object /\
  marshal_object ex_oracle ex_v ex_t (Some ex_object) = WOk ex_tokens /\ reread ex_object = ex_object.
Proof. split; [exact ex_tagged|]. split; [exact ex_lossless|]. split; [exact ex_written|]. vm_compute. reflexivity. Qed.
Example C35_list : all1 (lossless ex_v "thing") ex_items /\
  unmarshal_list ex_oracle ex_v "thing" ex_items_tokens = Ok ex_items [].
Proof. split; [exact ex_items_lossless|]. vm_compute. reflexivity. Qed.

(** C36 *)
Theorem C36_unknown_members_are_ignored : forall o v t l f x m, f <> "" -> ~ In f (member_names t) -> clean (JObj (l ++ m)) ->
  unmarshal_object o v t (tokens (JObj (l ++ (f, x) :: m))) = unmarshal_object o v t (tokens (JObj (l ++ m))).
Proof. exact unknown_ignored. Qed.
Print Assumptions C36_unknown_members_are_ignored.

Theorem C36_order_is_irrelevant : forall o v t l m, Permutation l m -> NoDup (map fst l) -> clean (JObj l) ->
  unmarshal_object o v t (tokens (JObj l)) = unmarshal_object o v t (tokens (JObj m)).
Proof. exact order_irrelevant. Qed.
Print Assumptions C36_order_is_irrelevant.

Theorem C36_present_iff_in_the_document : forall o v t l r rest, fits t -> tagged t -> structural t -> clean (JObj l) ->
  unmarshal_object o v t (tokens (JObj l)) = Ok r rest ->
  rest = [] /\
  (forall i a, nth_error (t_attrs t) i = Some a -> (present t i r <-> In (attribute_name a) (map fst l))) /\
  (t_kind t = ClassType ->
   (has_id r <-> In "id" (map fst l)) /\ (has_href r <-> In "href" (map fst l)) /\
   (is_link r <-> In ("kind", JStr (object_name t ++ "Link")) l)).
Proof. exact document_presence. Qed.
Print Assumptions C36_present_iff_in_the_document.

Theorem C36_members_are_independent : forall o v t l, clean (JObj l) ->
  unmarshal_object o v t (tokens (JObj l)) = Failed <->
  exists p, In p l /\ unmarshal_object o v t (tokens (JObj [p])) = Failed.
Proof. exact members_independent. Qed.
Print Assumptions C36_members_are_independent.

Theorem C36_last_member_wins : forall o v t l j m r rest i a, fits t -> tagged t ->
  clean (JObj (l ++ (attribute_name a, j) :: m)) -> nth_error (t_attrs t) i = Some a -> ~ In (attribute_name a) (map fst m) ->
  unmarshal_object o v t (tokens (JObj (l ++ (attribute_name a, j) :: m))) = Ok r rest ->
  exists r', unmarshal_object o v t (tokens (JObj [(attribute_name a, j)])) = Ok r' [] /\
    nth_error (o_fields r) i = nth_error (o_fields r') i.
Proof. exact last_member. Qed.
Print Assumptions C36_last_member_wins.

Theorem C36_reading_ends : forall o v t e l,
  unmarshal_object o v t l <> OutOfFuel /\ unmarshal_list o v e l <> OutOfFuel.
Proof. exact (fun o v t e l => conj (object_fuel o v t l) (list_fuel o v e l)). Qed.
Print Assumptions C36_reading_ends.

Theorem C36_metadata_members : forall l, ~ In "" (map fst l) -> NoDup (map fst l) ->
  unmarshal_metadata (tokens (JObj l)) =
  match mget "server_version" l with
  | Some (JStr s) => Ok (1%N, s) []
  | Some JNull => Ok (1%N, "") []
  | Some _ => Failed
  | None => Ok (0%N, "") []
  end.
Proof. exact metadata_spec. Qed.
Print Assumptions C36_metadata_members.

Example C36_document : clean (JObj ex_members) /\ ~ In "size" (member_names ex_t) /\
  exists r, unmarshal_object ex_oracle ex_v ex_t (tokens (JObj ex_members)) = Ok r [] /\ is_link r /\ has_id r /\ ~ has_href r /\
    present ex_t 6 r /\ ~ present ex_t 7 r /\ nth_error (o_fields r) 6 = Some (VScalar (SString "y")).
Proof.
  split; [exact ex_members_clean|]. split; [apply existsb_in; vm_compute; reflexivity|]. eexists.
  split; [vm_compute; reflexivity|]. repeat split; vm_compute; discriminate.
Qed.

(** C37 *)
Theorem C37_maps_are_written_sorted : forall o v k link t e l r, standard v -> compiles v -> faithful o ->
  mget k (v_types v) = Some t -> t_kind t = MapType -> t_element t = Some e -> typed v k link (VMap l) ->
  write_value o v k link (VMap l) = WOk r ->
  exists m, r = tokens (JObj m) /\ increasing (map fst m) /\ map fst m = map fst l /\
    (forall f x y, In (f, x) l -> In (f, y) m -> shows o v e x y).
Proof. exact map_written. Qed.
Print Assumptions C37_maps_are_written_sorted.

Theorem C37_iteration_order_is_irrelevant : forall o1 o2 v t b, standard v -> format_float o1 = format_float o2 ->
  (forall m, Permutation m (order o1 m)) -> (forall m, Permutation m (order o2 m)) ->
  object_typed v t b -> all1 concrete (o_fields b) ->
  marshal_object o1 v t (Some b) = marshal_object o2 v t (Some b).
Proof. exact (fun o1 o2 v t b S Ff P1 P2 => marshal_order o1 o2 v S Ff P1 P2 t b). Qed.
Print Assumptions C37_iteration_order_is_irrelevant.

(** The maps inside of attributes of type [interface{}] are written in the order of the iteration. *)
Theorem C37_interface_maps_refuted : exists o1 o2 v t b, faithful o1 /\ faithful o2 /\ standard v /\ compiles v /\
  object_typed v t b /\ format_float o1 = format_float o2 /\
  marshal_object o1 v t (Some b) <> marshal_object o2 v t (Some b).
Proof.
  exists ex_oracle, ex_backwards, ex_v, ex_t, ex_mixed. split; [exact ex_faithful|]. split; [exact ex_backwards_faithful|].
  split; [exact ex_standard|]. split; [exact ex_compiles|]. split; [exact ex_mixed_typed|]. split; [reflexivity|].
  vm_compute. discriminate.
Qed.
Print Assumptions C37_interface_maps_refuted.

Example C37_map : (forall m, Permutation m (order ex_oracle m)) /\ (forall m, Permutation m (order ex_backwards m)) /\
  order ex_oracle ["a"; "b"] <> order ex_backwards ["a"; "b"] /\
  (exists t, mget "string_string_map" (v_types ex_v) = Some t /\ t_kind t = MapType /\ t_element t = Some "string") /\
  typed ex_v "string_string_map" false (VMap [("k", VScalar (SString "v")); ("l", VScalar (SString "w"))]) /\
  write_value ex_backwards ex_v "string_string_map" false (VMap [("k", VScalar (SString "v")); ("l", VScalar (SString "w"))]) =
    WOk [TLBrace; TStr "k"; TColon; TStr "v"; TComma; TStr "l"; TColon; TStr "w"; TRBrace] /\
  object_typed ex_v ex_t (built_with (skipn 7 ex_calls)) /\ all1 concrete (o_fields (built_with (skipn 7 ex_calls))).
Proof.
  split; [exact (proj2 ex_faithful)|]. split; [exact (proj2 ex_backwards_faithful)|]. split; [discriminate|].
  split; [eexists; split; [vm_compute; reflexivity|split; reflexivity]|]. split; [apply typedb_sound; vm_compute; reflexivity|].
  split; [vm_compute; reflexivity|]. split; [apply object_typedb_sound; vm_compute; reflexivity|]. vm_compute. repeat split.
Qed.
