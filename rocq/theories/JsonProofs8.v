(** Proofs about JSON: iteration order of maps and metadata. *)
From Coq Require Import Ascii String Bool Arith ZArith NArith Lia Permutation List.
From Verif Require Import GoStrings GoMap GoMapProofs NamesModel NamesSpec NamesProofs ConceptsModel ConceptsSpec BindingModel GoNamesModel
  GoTimeModel GoTimeSpec GoTimeProofs ReporterModel ObjectsModel ObjectsSpec ObjectsProofs ObjectsProofs2 ObjectsProofs3 JsonModel JsonSpec
  JsonProofs JsonProofs2 JsonProofs3 JsonProofs4 JsonProofs5 JsonProofs6 JsonProofs7.
Import ListNotations.
Local Open Scope string_scope.

(** * Iteration order *)

Section Order.
  Context (o1 o2 : oracle) (v : version) (S : standard v) (Ff : format_float o1 = format_float o2).
  Context (P1 : forall m, Permutation m (order o1 m)) (P2 : forall m, Permutation m (order o2 m)).

  Lemma sequence_ext {A B} (f g : A -> B) l : (forall x, In x l -> f x = g x) -> map f l = map g l.
  Proof. apply map_ext_in. Qed.

  Lemma zip_ext {A B C} (f g : A -> B -> C) l m : (forall a b, In b m -> f a b = g a b) -> zip_with f l m = zip_with g l m.
  Proof.
    revert m. induction l as [|a l IH]; intros m H; [now destruct m|]. destruct m as [|b m]; [reflexivity|].
    change (f a b :: zip_with f l m = g a b :: zip_with g l m). rewrite H by (now left). f_equal. apply IH. intros. apply H. now right.
  Qed.

  Lemma any_order a : concrete_any a -> write_any o1 a = write_any o2 a.
  Proof.
    induction a using any_ind2; cbn [write_any concrete_any]; auto; intros Cn; [unfold write_float; now rewrite Ff| |contradiction].
    do 3 f_equal. induction H; cbn in *; auto. destruct Cn. f_equal; auto.
  Qed.

  (** What is written doesn't depend on the order, even if it fails. *)
  Lemma write_order : forall x k link, typed v k link x -> concrete x -> write_value o1 v k link x = write_value o2 v k link x.
  Proof.
    induction x as [s| |b IH|l IH|h b s _ IH|l IH] using value_ind2; intros k link T Cn; cbn in T;
      destruct (mget k (v_types v)) as [t|] eqn:Gk; try contradiction.
    - assert (T' : scalar_typed k t s).
      { destruct (t_kind t); try contradiction; auto; try (now destruct T as [_ T]; destruct (t_element t)). }
      rewrite !(write_scalar_eq _ _ S _ _ _ _ Gk T'). destruct s; cbn [write_scalar]; auto; [unfold write_float; now rewrite Ff|now apply any_order].
    - reflexivity.
    - assert (K : structural t).
      { unfold structural. destruct (t_kind t); try contradiction; auto; now destruct T as [_ T]; destruct (t_element t). }
      assert (T' : all2 (fun a y => typed v (a_type a) (a_link a) y) (t_attrs t) (o_fields b)).
      { destruct (t_kind t); try contradiction; try (now destruct T as [_ T]; destruct (t_element t)); now destruct T as (_ & _ & _ & T). }
      rewrite !(write_struct_eq _ _ S _ _ _ _ Gk K). unfold marshal_object. f_equal.
      clear T K Gk. cbn in Cn. revert T' Cn. generalize (t_attrs t). induction IH as [|x l H F IHl]; intros m T' Cn.
      + destruct m; [reflexivity|cbn in T'; discriminate].
      + destruct m as [|a m]; [reflexivity|]. cbn in T', Cn. destruct T', Cn.
        change ((a, x, write_value o1 v (a_type a) (a_link a) x) :: zip_with (fun a y => (a, y, write_value o1 v (a_type a) (a_link a) y)) m l =
                (a, x, write_value o2 v (a_type a) (a_link a) x) :: zip_with (fun a y => (a, y, write_value o2 v (a_type a) (a_link a) y)) m l).
        rewrite H by auto. f_equal. auto.
    - destruct (t_kind t) eqn:K; try contradiction; destruct T as [Pl T]; destruct (t_element t) as [e|] eqn:E; try contradiction.
      destruct T as [-> T]. rewrite !(write_slice_eq _ _ S _ _ _ _ Gk K E). unfold marshal_list. do 3 f_equal.
      cbn in Cn. clear -IH T Cn. induction IH as [|x l H F IHl]; cbn in *; auto. destruct T, Cn. rewrite H, IHl; auto.
    - destruct (t_kind t) eqn:K; try contradiction; destruct T as [Pl T]; destruct (t_element t) as [e|] eqn:E; try contradiction.
      destruct T as [-> T]. assert (Q : s = VNil \/ exists l, s = VSlice l) by (destruct s; try contradiction; eauto).
      rewrite !(write_list_eq _ _ S _ _ _ _ _ _ Gk K E) by auto.
      f_equal. f_equal. unfold marshal_list. do 3 f_equal. destruct s; try contradiction; [reflexivity|].
      specialize (IH _ eq_refl). cbn in Cn. cbn [elements]. clear -IH T Cn. induction IH as [|x l H F IHl]; cbn in *; auto. destruct T, Cn. rewrite H, IHl; auto.
    - destruct (t_kind t) eqn:K; try contradiction; destruct T as [Pl T]; destruct (t_element t) as [e|] eqn:E; try contradiction.
      destruct T as [Inc T]. rewrite !(write_map_eq _ _ S _ _ _ _ _ Gk K E). rewrite !sorted_keys by auto. do 3 f_equal.
      cbn in Cn. clear -IH T Cn. induction IH as [|[k' x] l H F IHl]; cbn in *; auto. destruct T, Cn. rewrite H, IHl; auto.
  Qed.

  Lemma marshal_order t (b : object) : object_typed v t b -> all1 concrete (o_fields b) ->
    marshal_object o1 v t (Some b) = marshal_object o2 v t (Some b).
  Proof.
    intros (_ & _ & _ & T) Cn. unfold marshal_object. f_equal. revert T Cn. generalize (t_attrs t), (o_fields b).
    intros m l. revert m. induction l as [|x l IH]; intros m T Cn.
    - destruct m; [reflexivity|cbn in T; discriminate].
    - destruct m as [|a m]; [reflexivity|]. cbn in T, Cn. destruct T, Cn.
      change ((a, x, write_value o1 v (a_type a) (a_link a) x) :: zip_with (fun a y => (a, y, write_value o1 v (a_type a) (a_link a) y)) m l =
              (a, x, write_value o2 v (a_type a) (a_link a) x) :: zip_with (fun a y => (a, y, write_value o2 v (a_type a) (a_link a) y)) m l).
      rewrite write_order by auto. f_equal. auto.
  Qed.
End Order.

Lemma map_written o v k link t e l r : standard v -> compiles v -> faithful o -> mget k (v_types v) = Some t -> t_kind t = MapType ->
  t_element t = Some e -> typed v k link (VMap l) -> write_value o v k link (VMap l) = WOk r ->
  exists m, r = tokens (JObj m) /\ increasing (map fst m) /\ map fst m = map fst l /\
    (forall f x y, In (f, x) l -> In (f, y) m -> shows o v e x y).
Proof.
  intros S C Fa G K E T W. assert (Pr : printable o v k (VMap l)).
  { destruct (value_succeeds o v S (compiled_version v C) (proj2 Fa) _ _ _ T) as [N|H]; [discriminate|]. apply H. now exists r. }
  assert (Sh := value_shown o v (proj2 Fa) _ _ _ T ltac:(discriminate) Pr).
  apply value_written in W; auto; [|now apply compiled_version|exact (proj2 Fa)|discriminate].
  cbn in T. rewrite G in T. rewrite K in T. rewrite E in T. destruct T as (_ & Inc & _).
  cbn [shows] in Sh. rewrite G in Sh. destruct Sh as (e' & m & He & Hj & Hm & Ha). rewrite E in He. injection He as <-.
  exists m. rewrite W, Hj. split; [reflexivity|]. split; [now rewrite Hm|]. split; [exact Hm|].
  intros f x y I1 I2. apply increasing_nodup in Inc. clear Hj W Pr G K E.
  revert m Hm Ha I2. induction l as [|[k1 x1] l IH]; intros m Hm Ha I2; [contradiction|].
  destruct m as [|[k2 y2] m]; [discriminate|]. cbn in *. destruct Ha as [Ha1 Ha2]. injection Hm as -> Hm. inversion Inc; subst.
  destruct I1 as [I1|I1], I2 as [I2|I2].
  - injection I1 as -> ->. injection I2 as ->. exact Ha1.
  - injection I1 as -> ->. exfalso. apply H1. rewrite <- Hm. change f with (fst (f, y)). now apply in_map.
  - injection I2 as -> ->. exfalso. apply H1. change f with (fst (f, x)). now apply in_map.
  - apply (IH H2 I1 m Hm Ha2 I2).
Qed.

(** * Metadata *)

Lemma metadata_written m :
  marshal_metadata m = WOk (tokens (JObj (if N.testbit (fst m) 0 then [("server_version", JStr (snd m))] else []))).
Proof. unfold marshal_metadata. rewrite has_bit_0. now destruct (N.testbit (fst m) 0). Qed.

Definition metadata_step (acc : option (N * string)) (p : string * json) : option (N * string) :=
  match acc with
  | None => None
  | Some m =>
      if String.eqb (fst p) "server_version" then
        match decode_string (snd p) with Some s => Some (set_bit (fst m) 1, s) | None => None end
      else Some m
  end.

Lemma metadata_loop l : Forall (fun p => fst p <> "") l -> forall m n rest, length (commas (map member l)) < n ->
  read_metadata n m (commas (map member l) ++ TRBrace :: rest) = of_option (fold_left metadata_step l (Some m)) rest.
Proof.
  induction 1 as [|[f x] l H F IH]; intros m n rest L; (destruct n as [|n]; [lia|]); [reflexivity|].
  cbn [fst] in H. cbn [map] in *.
  change (commas (member (f, x) :: map member l)) with (TComma :: TStr f :: TColon :: tokens x ++ commas (map member l))%list in *.
  cbn [app length] in *. rewrite app_length in L. rewrite <- app_assoc. cbn [read_metadata read_key rbind].
  assert (E : String.eqb f "" = false) by (now apply String.eqb_neq). rewrite E.
  cbn [fold_left]. unfold metadata_step at 2. cbn [fst snd].
  destruct (String.eqb f "server_version").
  - rewrite string_read. destruct (decode_string x); cbn [of_option rbind]; [apply IH; lia|]. now rewrite fold_none.
  - rewrite json_parsed by lia. apply IH. lia.
Qed.

Lemma metadata_start l rest : Forall (fun p => fst p <> "") l ->
  unmarshal_metadata (tokens (JObj l) ++ rest) = of_option (fold_left metadata_step l (Some (0%N, ""))) rest.
Proof.
  intros F. unfold unmarshal_metadata. assert (L : length (tokens (JObj l)) <= fuel (tokens (JObj l) ++ rest)).
  { unfold fuel. rewrite app_length. lia. }
  revert L. generalize (fuel (tokens (JObj l) ++ rest)) as n. intros n L. destruct l as [|p l].
  - cbn in L. destruct n as [|n]; [lia|]. reflexivity.
  - rewrite <- (metadata_loop (p :: l) F _ n rest).
    + rewrite tokens_members. destruct n as [|n]; [reflexivity|].
      change (commas (map member (p :: l))) with (TComma :: member p ++ commas (map member l))%list. cbn [app read_metadata].
      rewrite <- !app_assoc. cbn [app]. rewrite key_start. reflexivity.
    + rewrite tokens_members in L. change (commas (map member (p :: l))) with (TComma :: member p ++ commas (map member l))%list.
      cbn [length] in *. rewrite !app_length in *. cbn in *. lia.
Qed.

Lemma metadata_absent l m : ~ In "server_version" (map fst l) -> fold_left metadata_step l (Some m) = Some m.
Proof.
  induction l as [|p l IH]; cbn; intros N; auto. destruct (String.eqb (fst p) "server_version") eqn:E.
  - apply String.eqb_eq in E. tauto.
  - apply IH. tauto.
Qed.

Lemma metadata_found l m : NoDup (map fst l) ->
  fold_left metadata_step l (Some m) =
  match mget "server_version" l with
  | Some x => match decode_string x with Some s => Some (set_bit (fst m) 1, s) | None => None end
  | None => Some m
  end.
Proof.
  induction l as [|[f x] l IH]; intros N; [reflexivity|]. cbn [map fst] in N. inversion N; subst.
  cbn [fold_left mget]. unfold metadata_step at 2. cbn [fst snd]. rewrite (String.eqb_sym "server_version" f).
  destruct (String.eqb f "server_version") eqn:E; auto.
  apply String.eqb_eq in E. subst f. destruct (decode_string x); [now apply metadata_absent|now apply fold_none].
Qed.

Lemma metadata_spec l : ~ In "" (map fst l) -> NoDup (map fst l) ->
  unmarshal_metadata (tokens (JObj l)) =
  match mget "server_version" l with
  | Some (JStr s) => Ok (1%N, s) []
  | Some JNull => Ok (1%N, "") []
  | Some _ => Failed
  | None => Ok (0%N, "") []
  end.
Proof.
  intros Ne N. rewrite <- (app_nil_r (tokens _)), metadata_start, metadata_found; auto.
  - destruct (mget "server_version" l) as [[]|]; reflexivity.
  - apply Forall_forall. intros p H E. apply Ne. rewrite <- E. now apply in_map.
Qed.

Lemma metadata_back m l : marshal_metadata m = WOk l ->
  exists r, unmarshal_metadata l = Ok r [] /\ (N.testbit (fst r) 0 = N.testbit (fst m) 0) /\ (N.testbit (fst m) 0 = true -> snd r = snd m).
Proof.
  rewrite metadata_written. intros E. apply (f_equal (fun w => match w with WOk l => l | _ => [] end)) in E. cbv beta iota in E. subst l.
  destruct (N.testbit (fst m) 0).
  - rewrite metadata_spec; [cbn; eauto|cbn; intuition discriminate|cbn; repeat constructor; auto].
  - rewrite metadata_spec; [cbn; eexists; repeat split; congruence|auto|constructor].
Qed.

(** * Statements for the property theorems *)

Lemma object_document o v t b l : standard v -> compiles v -> faithful o -> structural t -> fits t -> object_typed v t b ->
  marshal_object o v t (Some b) = WOk l -> exists j, l = tokens j /\ well_formed j /\ shows_object o v t b j.
Proof.
  intros S C Fa St F T W. assert (Pr : object_printable o v t b) by (apply (object_succeeds o v S C Fa t b St F T); now exists l).
  apply object_written in W; auto. exists (encode_object o v t b). split; [exact W|]. split; [now apply object_wf|].
  eexists. split; [reflexivity|]. destruct T as (L & _ & _ & T).
  apply (fields_shown (fun a x y => shows o v (a_type a) x y) t b (fun a x => encode o v (a_type a) x)); auto. intros j a x Ha Hx P N.
  apply (value_shown o v (proj2 Fa) x (a_type a) (a_link a)); auto.
  - exact (proj2 (proj1 (all2_nth _ _ _) T) j a x Ha Hx).
  - exact (proj2 (proj1 (all_fields_self _ _ _ _) Pr) j a x Ha Hx P).
Qed.

Lemma list_document o v t e l r : standard v -> compiles v -> faithful o -> plain v t -> t_element t = Some e ->
  all1 (typed v e false) l -> marshal_list o v e l = WOk r ->
  exists m, r = tokens (JArr m) /\ well_formed (JArr m) /\ all2 (fun y x => shows o v e x y) m l.
Proof.
  intros S C Fa Pl E T W. assert (Pr := proj1 (list_succeeds o v S C Fa t e l Pl E T) (ex_intro _ r W)).
  apply (list_written o v S C Fa t e l r Pl E T) in W. exists (map (encode o v e) l). split; [exact W|]. split.
  - cbn. clear -Fa. induction l; cbn; auto. split; auto. now apply value_wf.
  - clear W. induction l as [|x l IH]; cbn in *; auto. destruct T, Pr as [[N P] Pr]. split; auto.
    apply (value_shown o v (proj2 Fa) x e false); auto.
Qed.
