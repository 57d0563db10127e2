(** Properties of the code that reads JSON documents: what the documents mean. *)
From Coq Require Import Ascii String Bool Arith ZArith NArith List.
From Verif Require Import OpenapiSpec ConformSpec ConformExamples.
From Verif Require Import GoStrings GoMap NamesModel ConceptsModel ReporterModel BindingModel GoNamesModel GoTimeModel BufferModel BufferExamples
  ObjectsModel ObjectsSpec JsonModel JsonSpec JsonExamples ReadingSpec ReadingProofs4 ReadingProofs6 ReadingProofs7 ReadingExamples.
Import ListNotations.
Local Open Scope string_scope.

(** C77: a document is read as an object if and only if it stands for that object; other documents are rejected. *)
Theorem C77_objects : forall o v, standard v -> compiles v -> sound v -> forall k t j b rest,
  mget k (v_types v) = Some t -> structural t -> clean j -> well_formed j ->
  (unmarshal_object o v t (tokens j) = Ok b rest <-> rest = [] /\ stands o v k false j (VObject b)).
Proof. exact document_meaning. Qed.
Print Assumptions C77_objects.

Example C77_read : standard ex_w /\ compiles ex_w /\ sound ex_w /\ mget "thing" (v_types ex_w) = Some ex_wt /\ structural ex_wt /\
  clean ex_read_doc /\ well_formed ex_read_doc /\ unmarshal_object ex_oracle ex_w ex_wt (tokens ex_read_doc) = Ok ex_read_object [].
Proof. exact (conj ex_w_standard (conj ex_w_compiles (conj ex_w_sound (conj ex_wt_type (conj ex_wt_structural ex_read_ok))))). Qed.

(** The last member counts, the items that are null are an empty list, and the attributes without members are absent. *)
Example C77_values : nth_error (o_fields ex_read_object) 6 = Some (VScalar (SString "last")) /\ nth_error (o_fields ex_read_object) 4 = Some (VMap [("a", VScalar (SString "1")); ("b", VScalar (SString "3"))]) /\
  nth_error (o_fields ex_read_object) 8 = Some (VSlice []) /\ present ex_wt 8 ex_read_object /\ ~ present ex_wt 11 ex_read_object /\
  nth_error (o_fields ex_read_object) 13 = Some (VScalar (SDate (MkDate 2024 2 29 10 20 30 250000000 3600))) /\
  exists c, nth_error (o_fields ex_read_object) 1 = Some (VList "/children" true (VSlice [VObject c])) /\ o_id c = "4".
Proof. exact ex_read_values. Qed.

(** The same for lists. *)
Theorem C77_lists : forall o v, standard v -> compiles v -> sound v -> forall e j m rest, clean j -> well_formed j ->
  (unmarshal_list o v e (tokens j) = Ok m rest <-> rest = [] /\ items_in (stands o v e false) j m).
Proof. exact items_meaning. Qed.
Print Assumptions C77_lists.

Example C77_read_list : clean ex_read_list /\ well_formed ex_read_list /\ unmarshal_list ex_oracle ex_w "thing" (tokens ex_read_list) = Ok ex_read_items [].
Proof. exact ex_read_list_ok. Qed.

(** A document has one meaning at most. *)
Theorem C77_unique : forall o v, standard v -> compiles v -> sound v -> forall k link j x y,
  well_formed j -> stands o v k link j x -> stands o v k link j y -> x = y.
Proof. exact meaning_unique. Qed.
Print Assumptions C77_unique.

Example C77_meaning : stands ex_oracle ex_w "thing" false ex_read_doc (VObject ex_read_object).
Proof.
  exact (proj2 (proj1 (C77_objects ex_oracle ex_w ex_w_standard ex_w_compiles ex_w_sound "thing" ex_wt ex_read_doc ex_read_object [] ex_wt_type ex_wt_structural
    (proj1 ex_read_ok) (proj1 (proj2 ex_read_ok))) (proj2 (proj2 ex_read_ok)))).
Qed.

(** Whatever has been read, from any sequence of tokens, is correctly typed and contains no nil values. *)
Theorem C77_typed : forall o v, standard v -> compiles v -> sound v -> forall k t l b r,
  mget k (v_types v) = Some t -> structural t -> unmarshal_object o v t l = Ok b r ->
  object_typed v t b /\ (forall x, In x (o_fields b) -> no_nil x).
Proof. exact read_typed. Qed.
Print Assumptions C77_typed.

Theorem C77_items_typed : forall o v, standard v -> compiles v -> sound v -> forall e l m r,
  usable v e -> unmarshal_list o v e l = Ok m r -> all1 (typed v e false) m /\ all1 (fun y => y <> VNil /\ no_nil y) m.
Proof. exact items_typed. Qed.
Print Assumptions C77_items_typed.

Example C77_usable : usable ex_w "thing" /\ unmarshal_list ex_oracle ex_w "thing" (tokens ex_read_list) = Ok ex_read_items [].
Proof. exact (conj (structural_usable ex_w "thing" ex_wt ex_wt_type ex_wt_structural) (proj2 (proj2 ex_read_list_ok))). Qed.

(** Whatever has been read can be written. *)
Theorem C77_written : forall o v, standard v -> compiles v -> sound v -> faithful o -> writes_numbers o -> forall k t l b r,
  mget k (v_types v) = Some t -> structural t -> unmarshal_object o v t l = Ok b r -> exists w, marshal_object o v t (Some b) = WOk w.
Proof. exact read_written. Qed.
Print Assumptions C77_written.

Theorem C77_items_written : forall o v, standard v -> compiles v -> sound v -> faithful o -> writes_numbers o -> forall k t e l m r,
  mget k (v_types v) = Some t -> plain v t -> t_element t = Some e -> unmarshal_list o v e l = Ok m r -> exists w, marshal_list o v e m = WOk w.
Proof. exact items_written. Qed.
Print Assumptions C77_items_written.

Example C77_oracle : faithful ex_oracle /\ writes_numbers ex_oracle /\ exists k t, mget k (v_types ex_w) = Some t /\ plain ex_w t /\ t_element t = Some "thing".
Proof.
  split; [exact ex_faithful|]. split; [exact ex_writes_numbers|]. exists "thing_list". eexists. split; [vm_compute; reflexivity|].
  split; [apply ObjectsExamples.plainb_sound; vm_compute; reflexivity|vm_compute; reflexivity].
Qed.

(** The documents that conform to the published schemas are read, if the values of struct types are objects and there are no lists of links. *)
Theorem C77_conforming : forall sys fuel output s v reports fs doc, published sys fuel output s v reports fs doc -> standard v -> compiles v -> sound v ->
  forall o k t j, mget k (v_types v) = Some t -> structural t ->
  conforms doc (JObj [("$ref", JStr ("#/components/schemas/" ++ camel (t_name t)))]) j -> shaped v k false j -> clean j -> well_formed j -> reads_numbers o j ->
  exists b, unmarshal_object o v t (tokens j) = Ok b [].
Proof. exact conforming_object. Qed.
Print Assumptions C77_conforming.

Example C77_whole : published ex_system 20 "out" ex_s ex_w [] [] ex_doc /\
  conforms ex_doc (JObj [("$ref", JStr ("#/components/schemas/" ++ camel (t_name ex_wt)))]) ex_whole_doc /\
  shaped ex_w "thing" false ex_whole_doc /\ clean ex_whole_doc /\ well_formed ex_whole_doc /\ reads_numbers ex_oracle ex_whole_doc.
Proof. exact (conj ex_conform_published (conj (proj2 ex_whole_conforms) ex_whole_shaped)). Qed.

Theorem C77_conforming_lists : forall sys fuel output s v reports fs doc, published sys fuel output s v reports fs doc -> standard v -> compiles v -> sound v ->
  forall o k t e l j, mget k (v_types v) = Some t -> t_kind t = ListType -> t_element t = Some e -> type_schema v k l ->
  conforms doc (JObj l) j -> shaped v k false j -> clean j -> well_formed j -> reads_numbers o j ->
  exists m, unmarshal_list o v e (tokens j) = Ok m [].
Proof. exact conforming_list. Qed.
Print Assumptions C77_conforming_lists.

Example C77_whole_list : mget "thing_list" (v_types ex_w) = Some ex_list_type /\ t_kind ex_list_type = ListType /\ t_element ex_list_type = Some "thing" /\
  type_schema ex_w "thing_list" [("type", JStr "array"); ("items", JObj ex_thing_schema)] /\
  conforms ex_doc (JObj [("type", JStr "array"); ("items", JObj ex_thing_schema)]) (JArr [ex_whole_doc]) /\
  shaped ex_w "thing_list" false (JArr [ex_whole_doc]) /\ clean (JArr [ex_whole_doc]) /\ well_formed (JArr [ex_whole_doc]) /\ reads_numbers ex_oracle (JArr [ex_whole_doc]).
Proof.
  exact (conj (proj1 ex_list_schema) (conj (proj1 (proj2 ex_list_schema)) (conj (proj1 (proj2 (proj2 ex_list_schema))) (conj (proj2 (proj2 (proj2 ex_list_schema))) ex_list_conforms)))).
Qed.

(** Lists of links that conform to the published schemas are always rejected. *)
Theorem C77_links : forall sys fuel output s v reports fs doc, published sys fuel output s v reports fs doc -> standard v -> compiles v -> sound v ->
  forall o k t a ta, distinct_schemas v -> mget k (v_types v) = Some t -> structural t -> In a (t_attrs t) -> a_link a = true ->
  mget (a_type a) (v_types v) = Some ta -> t_kind ta = ListType ->
  conforms doc (JObj [("$ref", JStr ("#/components/schemas/" ++ camel (t_name t)))]) (JObj [(attribute_name a, JArr [])]) /\
  unmarshal_object o v t (tokens (JObj [(attribute_name a, JArr [])])) = Failed.
Proof. exact conforming_links. Qed.
Print Assumptions C77_links.

Example C77_children : distinct_schemas ex_w /\
  exists a ta, In a (t_attrs ex_wt) /\ a_link a = true /\ attribute_name a = "children" /\ mget (a_type a) (v_types ex_w) = Some ta /\ t_kind ta = ListType.
Proof. exact (conj ex_w_distinct ex_children_attribute). Qed.

(** What has been read and loses nothing when it is written is the same after it is written and read again. *)
Theorem C77_stable : forall o v, standard v -> compiles v -> sound v -> faithful o -> writes_numbers o -> forall k t l b r,
  mget k (v_types v) = Some t -> structural t -> unmarshal_object o v t l = Ok b r -> object_lossless v t b ->
  exists w b', marshal_object o v t (Some b) = WOk w /\ unmarshal_object o v t w = Ok b' [] /\ same_object v t b b'.
Proof. exact read_stable. Qed.
Print Assumptions C77_stable.

Example C77_again : unmarshal_object ex_oracle ex_w ex_wt ex_whole_tokens = Ok ex_again [] /\ object_lossless ex_w ex_wt ex_again.
Proof. exact ex_again_ok. Qed.
