(** Proofs about the execution of the code that reads JSON documents: the properties. *)
From Coq Require Import Ascii String Bool Arith ZArith NArith Lia Permutation List.
From Verif Require Import GoStrings GoMap GoMapProofs NamesModel ConceptsModel ReporterModel BindingModel GoNamesModel ChecksModel GoTypesSpec
  ObjectsModel ObjectsSpec ObjectsProofs ObjectsProofs2 JsonModel JsonSpec JsonProofs3 JsonProofs4 JsonProofs5 JsonProofs6 JsonProofs7 JsonCodeModel JsonRunSpec JsonRunProofs6 JsonRunProofs11.
Import ListNotations.
Local Open Scope string_scope.

Lemma run_read_object o pkg v fs structures limit k t w l n : reading pkg v fs structures -> mget k (v_types v) = Some t -> structural t ->
  2 * length l + 4 <= n -> 2 * length l + 2 <= limit ->
  run o v structures fs limit n (unmarshal_func t) [RSource] (MkState w l) = parsed (unmarshal_object o v t l) (fun b => run_value v k (VObject b)) w.
Proof. intros ((S & R & C & O) & P & N & D) G K L1 L2. apply (object_read o pkg v fs structures limit P S N R C O D); unfold fuel; auto; lia. Qed.

Lemma run_read_list o pkg v fs structures limit k t e w l n : reading pkg v fs structures -> mget k (v_types v) = Some t -> t_kind t = ListType -> plain v t -> t_element t = Some e ->
  2 * length l + 4 <= n -> 2 * length l + 2 <= limit ->
  run o v structures fs limit n (unmarshal_func t) [RSource] (MkState w l) = parsed (unmarshal_list o v e l) (fun m => run_value v k (VSlice m)) w.
Proof. intros ((S & R & C & O) & P & N & D) G K Pl El L1 L2. apply (list_read o pkg v fs structures limit P S N R C O D); unfold fuel; auto; lia. Qed.

(** What is written is read. *)
Lemma run_object_returns o pkg v fs structures k t b : faithful o -> reading pkg v fs structures -> mget k (v_types v) = Some t -> structural t ->
  object_typed v t b -> object_printable o v t b -> object_lossless v t b ->
  exists l r, same_object v t b r /\ forall limit, 2 * length l + 2 <= limit -> exists n0, forall n s w, n0 <= n ->
    run o v structures fs limit n (marshal_func t) [run_value v k (VObject b); RWriter] s = Gives RNil (MkState (WOk l) (st_in s)) /\
    run o v structures fs limit n (unmarshal_func t) [RSource] (MkState w l) = Gives (RTuple [run_value v k (VObject r); RNil]) (MkState w []).
Proof.
  intros F R G K T P L. pose proof R as ((S & Rd & Co & O) & _). pose proof (ready_compiles v Rd) as C. destruct (C k t G K) as [Fi Ta].
  destruct (proj2 (object_succeeds o v S C F t b K Fi T) P) as [l E]. destruct (object_round_trip o v S C F t b l K Fi Ta T L E) as (r & U & Sm).
  exists l, r. split; [exact Sm|]. intros limit L2. destruct (run_object o pkg v fs structures limit k t b F (proj1 R) G K T) as [n0 H].
  exists (n0 + (2 * length l + 4)). intros n s w L1. split.
  - rewrite H, E by lia. reflexivity.
  - rewrite (run_read_object o pkg v fs structures limit k t w l n R G K ltac:(lia) ltac:(lia)), U. reflexivity.
Qed.
Lemma run_list_returns o pkg v fs structures k t e l : faithful o -> reading pkg v fs structures -> mget k (v_types v) = Some t -> t_kind t = ListType -> plain v t -> t_element t = Some e ->
  all1 (typed v e false) l -> all1 (fun y => y <> VNil /\ printable o v e y) l -> all1 (lossless v e) l ->
  exists r m, all2 (fun y x => same v e false x y) m l /\ forall limit, 2 * length r + 2 <= limit -> exists n0, forall n s w, n0 <= n ->
    run o v structures fs limit n (marshal_func t) [run_value v k (VSlice l); RWriter] s = Gives RNil (MkState (WOk r) (st_in s)) /\
    run o v structures fs limit n (unmarshal_func t) [RSource] (MkState w r) = Gives (RTuple [run_value v k (VSlice m); RNil]) (MkState w []).
Proof.
  intros F R G K Pl El T P L. pose proof R as ((S & Rd & Co & O) & _). pose proof (ready_compiles v Rd) as C.
  destruct (proj2 (list_succeeds o v S C F t e l Pl El T) P) as [r E]. destruct (list_round_trip o v S C F t e l r Pl El T P L E) as (m & U & Sm).
  exists r, m. split; [exact Sm|]. intros limit L2. destruct (run_list_value o pkg v fs structures limit k t e l F (proj1 R) G K Pl El T) as [n0 H].
  exists (n0 + (2 * length r + 4)). intros n s w L1. split.
  - rewrite H, E by lia. reflexivity.
  - rewrite (run_read_list o pkg v fs structures limit k t e w r n R G K Pl El ltac:(lia) ltac:(lia)), U. reflexivity.
Qed.

(** The attributes that are present are those of the document. *)
Lemma run_presence o pkg v fs structures limit k t w l g s n : reading pkg v fs structures -> mget k (v_types v) = Some t -> structural t -> clean (JObj l) ->
  2 * length (tokens (JObj l)) + 4 <= n -> 2 * length (tokens (JObj l)) + 2 <= limit ->
  run o v structures fs limit n (unmarshal_func t) [RSource] (MkState w (tokens (JObj l))) = Gives g s ->
  exists r, g = RTuple [run_value v k (VObject r); RNil] /\ s = MkState w [] /\
    (forall i a, nth_error (t_attrs t) i = Some a -> (present t i r <-> In (attribute_name a) (map fst l))) /\
    (t_kind t = ClassType -> (has_id r <-> In "id" (map fst l)) /\ (has_href r <-> In "href" (map fst l)) /\ (is_link r <-> In ("kind", JStr (object_name t ++ "Link")) l)).
Proof.
  intros R G K Cl L1 L2 H. rewrite (run_read_object o pkg v fs structures limit k t w _ n R G K L1 L2) in H. destruct R as ((S & Rd & Co & O) & _). destruct (ready_compiles v Rd k t G K) as [Fi Ta].
  destruct (unmarshal_object o v t (tokens (JObj l))) as [r rest| |] eqn:E; cbn [parsed] in H; try discriminate. injection H as <- <-.
  destruct (document_presence o v t l r rest Fi Ta K Cl E) as (-> & P1 & P2). exists r. auto.
Qed.

(** There are no other ways to end. *)
Lemma run_ends o pkg v fs structures limit k t w l n : reading pkg v fs structures -> mget k (v_types v) = Some t -> structural t \/ (t_kind t = ListType /\ plain v t) ->
  2 * length l + 4 <= n -> 2 * length l + 2 <= limit ->
  run o v structures fs limit n (unmarshal_func t) [RSource] (MkState w l) = Ends WrongDocument \/
  exists g rest, run o v structures fs limit n (unmarshal_func t) [RSource] (MkState w l) = Gives (RTuple [g; RNil]) (MkState w rest).
Proof.
  intros R G K L1 L2. destruct K as [K|[K Pl]].
  - rewrite (run_read_object o pkg v fs structures limit k t w l n R G K L1 L2). pose proof (object_fuel o v t l) as F. destruct (unmarshal_object o v t l) as [b r| |]; cbn [parsed]; [right; eauto|now left|contradiction].
  - pose proof Pl as (e & te & El & _). rewrite (run_read_list o pkg v fs structures limit k t e w l n R G K Pl El L1 L2). pose proof (list_fuel o v e l) as F.
    destruct (unmarshal_list o v e l) as [b r| |]; cbn [parsed]; [right; eauto|now left|contradiction].
Qed.
