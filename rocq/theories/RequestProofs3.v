(** Proofs about the bodies of the requests and responses. *)
From Coq Require Import Ascii String Bool Arith ZArith NArith Lia Permutation List.
From Verif Require Import GoStrings GoStringsProofs GoMap GoMapProofs NamesModel NamesProofs ConceptsModel BindingModel GoNamesModel ObjectsModel ObjectsSpec HelpersModel
  ClientsModel JsonModel JsonSpec JsonProofs JsonProofs2 JsonProofs3 JsonProofs4 JsonProofs5 JsonProofs6 JsonTextModel JsonTextSpec
  ChecksSpec ChecksProofs ChecksProofs2 BindingSpec BindingProofs ApiErrorModel RequestModel RequestSpec.
Import ListNotations.
Local Open Scope string_scope.

Local Notation encode := JsonProofs.encode.

(** The kind of a method is determined by the words of its name. *)
Lemma kind_called m ws n ws' : called ws (m_name m) -> n_words n = map (fun s => MkWord s false) ws' ->
  name_equals (Some (m_name m)) (Some n) = if list_eq_dec String.string_dec ws' ws then true else false.
Proof.
  intros C Hn. destruct (list_eq_dec String.string_dec ws' ws) as [->|N]; [now apply (method_called m n ws Hn)|now apply (is_not m n ws' ws)].
Qed.

Ltac kinds C :=
  unfold is_add, is_delete, is_async_delete, is_get, is_list_method, is_post, is_search, is_update, is_async_update in *;
  repeat first
    [rewrite (kind_called _ _ nAdd ["add"] C eq_refl) in * | rewrite (kind_called _ _ nDelete ["delete"] C eq_refl) in * |
     rewrite (kind_called _ _ nAsyncDelete ["async"; "delete"] C eq_refl) in * | rewrite (kind_called _ _ nGet ["get"] C eq_refl) in * |
     rewrite (kind_called _ _ nList ["list"] C eq_refl) in * | rewrite (kind_called _ _ nPost ["post"] C eq_refl) in * |
     rewrite (kind_called _ _ nSearch ["search"] C eq_refl) in * | rewrite (kind_called _ _ nUpdate ["update"] C eq_refl) in * |
     rewrite (kind_called _ _ nAsyncUpdate ["async"; "update"] C eq_refl) in *].

Lemma action_kinds m : action m -> is_add m = false /\ is_delete m = false /\ is_async_delete m = false /\ is_get m = false /\
  is_list_method m = false /\ is_post m = false /\ is_search m = false /\ is_update m = false /\ is_async_update m = false.
Proof.
  intros A. apply is_action_spec in A. unfold is_action in A.
  destruct (is_add m), (is_delete m), (is_async_delete m), (is_get m), (is_list_method m), (is_post m), (is_search m), (is_update m),
    (is_async_update m); try discriminate. repeat split.
Qed.

Lemma first_parameter n ws m p : n_words n = map (fun s => MkWord s false) ws -> (get_parameter n m = Some p <-> first_called ws (m_params m) p).
Proof. intros H. now apply get_first. Qed.

Lemma last_single f l p : filter f l = [p] -> last_parameter f l = Some p.
Proof.
  unfold last_parameter. assert (G : forall a, fold_left (fun r p => if f p then Some p else r) l a = match rev (filter f l) with [] => a | x :: _ => Some x end).
  { induction l as [|q l IH]; [reflexivity|]. intros a. cbn. rewrite IH. destruct (f q); [|reflexivity].
    cbn. now destruct (rev (filter f l)). }
  intros E. now rewrite G, E.
Qed.

Lemma last_found f l p : last_parameter f l = Some p -> In p l /\ f p = true.
Proof.
  unfold last_parameter. assert (G : forall a, fold_left (fun r p => if f p then Some p else r) l a = Some p -> a = Some p \/ (In p l /\ f p = true)).
  { induction l as [|q l IH]; intros a H; [now left|]. cbn in H. destruct (IH _ H) as [E|[I F]]; [|right; split; [now right|exact F]].
    destruct (f q) eqn:Q; [|now left]. injection E as ->. right. split; [now left|exact Q]. }
  intros E. destruct (G None E) as [|H]; [discriminate|exact H].
Qed.

Lemma last_exists f l p : In p l -> f p = true -> last_parameter f l <> None.
Proof.
  unfold last_parameter. assert (G : forall a, (a <> None \/ exists p, In p l /\ f p = true) -> fold_left (fun r p => if f p then Some p else r) l a <> None).
  { induction l as [|q l IH]; intros a [H|(x & I & F)]; cbn; [exact H|destruct I| |].
    - apply IH. left. now destruct (f q).
    - apply IH. destruct I as [->|I]; [rewrite F; now left|]. right. now exists x. }
  intros I F. apply G. right. now exists p.
Qed.

Section Bodies.
  Context (o : oracle) (v : version).
  Context (St : standard v) (Co : compiles v) (Fa : faithful o).

  Lemma value_document k x l : typed v k false x -> x <> VNil -> write_value o v k false x = WOk l ->
    l = tokens (encode o v k x) /\ well_formed (encode o v k x) /\ shows o v k x (encode o v k x) /\ printable o v k x.
  Proof.
    intros T N W. assert (C : compiled v) by (now apply compiled_version).
    assert (Pr : printable o v k x).
    { destruct (value_succeeds o v St C (proj2 Fa) x k false T) as [E|H]; [contradiction|]. apply H. now exists l. }
    split; [exact (value_written o v St C (proj2 Fa) x k false T N l W)|]. split; [now apply value_wf|].
    split; [|exact Pr]. exact (value_shown o v (proj2 Fa) x k false T N Pr).
  Qed.

  Lemma tokens_inj j j' : tokens j = tokens j' -> j = j'.
  Proof.
    intros E. assert (G := json_parsed j (S (length (tokens j))) []). rewrite app_nil_r in G.
    assert (G' := json_parsed j' (S (length (tokens j'))) []). rewrite app_nil_r in G'. rewrite E in G.
    specialize (G ltac:(lia)). specialize (G' ltac:(lia)). congruence.
  Qed.

  Lemma represented k x j : represents o v k x j -> exists y, decode o v k false j = Some y /\ same v k false x y /\ legible v k false j /\ well_formed j.
  Proof.
    intros (T & N & L & W). destruct (value_document k x _ T N W) as (E & Wf & _ & Pr). apply tokens_inj in E. subst j.
    destruct (value_back o v St Co Fa x k false T N Pr L) as (y & D & Sm). exists y. repeat split; auto.
    exact (value_legible o v Co x k false T L).
  Qed.

  Lemma represented_read k x j n : represents o v k x j -> S (length (tokens j)) < n ->
    exists y, read_value o v n k false (tokens j) = Ok y [] /\ same v k false x y.
  Proof.
    intros R L. destruct (represented k x j R) as (y & D & Sm & Lg & _). exists y. split; [|exact Sm].
    rewrite <- (app_nil_r (tokens j)). rewrite (proj1 (value_read o v j)) by auto. now rewrite D.
  Qed.

  (** * Requests *)

  Lemma parameters_written fs l : fields_typed v fs l -> forall count r, write_parameters o v count l fs = WOk r ->
    exists ms, r = lead count (map member ms) /\ shows_parameters o v fs l ms /\ all1 (fun p => well_formed (snd p)) ms.
  Proof.
    induction l as [|p l IH]; intros T count r W.
    - injection W as <-. exists []. repeat split. unfold lead. now destruct (Nat.ltb 0 count).
    - assert (T' : fields_typed v fs l) by (intros q x I; apply T; now right).
      cbn [write_parameters] in W. cbn [shows_parameters]. unfold field_at, json_field in W.
      destruct (mget (go_private (p_name p)) fs) as [x|] eqn:M; [|now apply IH].
      destruct x eqn:X; [| now apply IH | | | | ]; rewrite <- X in *.
      all: assert (Tx : x = VNil \/ typed v (p_type p) false x) by (apply (T p); [now left|exact M]);
        destruct Tx as [Tx|Tx]; [congruence|];
        apply wcat_ok in W as (a1 & a2 & W1 & W2 & ->); apply wcat_ok in W2 as (b1 & b2 & W2 & W3 & ->); injection W2 as <-;
        apply wcat_ok in W3 as (c1 & c2 & W3 & W4 & ->);
        destruct (IH T' _ _ W4) as (ms & E & Sh & Wf); assert (Nx : x <> VNil) by congruence;
        destruct (value_document _ _ _ Tx Nx W3) as (Ec & Wc & Sc & _);
        exists ((body_parameter_name p, encode o v (p_type p) x) :: ms);
        (split; [|split; [eexists; eexists; split; [reflexivity|split; [exact Sc|exact Sh]]|split; [exact Wc|exact Wf]]]);
        cbn [map]; rewrite lead_cons; (assert (Ea : a1 = if Nat.ltb 0 count then [TComma] else []) by (destruct (Nat.ltb 0 count); injection W1 as <-; reflexivity));
        rewrite Ea; f_equal; unfold member at 1; cbn [fst snd app]; rewrite Ec, E; do 2 f_equal; f_equal;
        unfold lead; (replace (Nat.ltb 0 (count + 1)) with true by (symmetry; apply Nat.ltb_lt; lia)); reflexivity.
  Qed.

  Lemma action_written m fs l : action m -> request_body_params v m <> [] -> fields_typed v fs (request_body_params v m) ->
    write_request o v m fs = WOk l ->
    exists ms, l = tokens (JObj ms) /\ well_formed (JObj ms) /\ shows_parameters o v fs (request_body_params v m) ms.
  Proof.
    intros A N T W. destruct (action_kinds m A) as (K1 & K2 & K3 & K4 & K5 & K6 & K7 & K8 & K9).
    unfold write_request in W. rewrite K1, K2, K3, K4, K5, K6, K7, K8, K9 in W. cbn [orb] in W.
    destruct (request_body_params v m) as [|p ps]; [contradiction|].
    apply wcat_ok in W as (a1 & a2 & W1 & W2 & ->). apply wcat_ok in W2 as (b1 & b2 & W2 & W3 & ->).
    injection W1 as <-. injection W3 as <-. destruct (parameters_written fs (p :: ps) T 0 _ W2) as (ms & -> & Sh & Wf).
    exists ms. split; [now rewrite tokens_object|]. split; [exact Wf|exact Sh].
  Qed.

  Lemma whole_written m p fs : request_whole m p ->
    write_request o v m fs = write_value o v (p_type p) false (field_at fs (json_field p)).
  Proof.
    assert (B : forall q, called ["body"] (p_name q) -> json_field q = "body").
    { intros q C. unfold json_field, go_private. rewrite C. reflexivity. }
    intros [(ws & I & C & F)|[(C & F)|(C & F)]].
    - assert (G := proj2 (first_parameter nBody ["body"] m p eq_refl) F). destruct F as (l1 & l2 & _ & Cp & _). rewrite (B p Cp).
      unfold write_request. cbv zeta. rewrite G.
      repeat destruct I as [<-|I]; try contradiction; kinds C; reflexivity.
    - unfold write_request. cbv zeta. kinds C. rewrite (last_single _ _ _ F). reflexivity.
    - unfold write_request. cbv zeta. kinds C. rewrite (last_single _ _ _ F). reflexivity.
  Qed.

  (** * Responses *)

  Definition case_step (cases : list case) (acc : option (list (string * value))) (p : string * json) : option (list (string * value)) :=
    match acc with
    | None => None
    | Some fs =>
        match find (fun c => String.eqb (fst p) (k_tag c)) cases with
        | Some c => option_map (fun x => mset (k_field c) (k_wrap c x) fs) (decode o v (k_type c) false (snd p))
        | None => Some fs
        end
    end.

  Lemma cases_loop cases l : all1 (fun p => fst p <> "" /\ clean (snd p)) l ->
    forall fs n rest, length (commas (map member l)) < n ->
    read_cases o v n cases fs (commas (map member l) ++ TRBrace :: rest) = of_option (fold_left (case_step cases) l (Some fs)) rest.
  Proof.
    induction l as [|[f x] l IH]; intros C fs n rest L; (destruct n as [|n]; [lia|]); [reflexivity|].
    destruct C as [[C1 C2] C3]. cbn [fst snd] in *. cbn [map] in *.
    change (commas (member (f, x) :: map member l)) with (TComma :: TStr f :: TColon :: tokens x ++ commas (map member l))%list in *.
    cbn [app length] in *. rewrite app_length in L. rewrite <- app_assoc. cbn [read_cases read_key rbind].
    assert (E : String.eqb f "" = false) by (now apply String.eqb_neq). rewrite E.
    assert (IH' : forall fs, read_cases o v n cases fs (commas (map member l) ++ TRBrace :: rest) = of_option (fold_left (case_step cases) l (Some fs)) rest).
    { intros b'. apply IH; auto. lia. }
    cbn [fold_left]. unfold case_step at 2. cbn [fst snd].
    assert (Z : fold_left (case_step cases) l None = None) by (now apply fold_none).
    destruct (find (fun c => String.eqb f (k_tag c)) cases) as [c|].
    - rewrite (proj1 (value_read o v x)) by (try apply clean_legible; auto; lia).
      destruct (decode o v (k_type c) false x); cbn [of_option rbind option_map]; [apply IH'|now rewrite Z].
    - rewrite json_parsed by lia. apply IH'.
  Qed.

  Lemma cases_start cases l : clean (JObj l) -> forall fs n rest, length (tokens (JObj l)) < n ->
    read_cases o v n cases fs (tokens (JObj l) ++ rest) = of_option (fold_left (case_step cases) l (Some fs)) rest.
  Proof.
    intros C fs n rest L. destruct l as [|p l].
    - cbn in L. destruct n as [|n]; [lia|]. reflexivity.
    - rewrite <- (cases_loop cases (p :: l) C fs n rest).
      + rewrite tokens_members. destruct n as [|n]; [reflexivity|].
        change (commas (map member (p :: l))) with (TComma :: member p ++ commas (map member l))%list. cbn [app read_cases].
        rewrite <- !app_assoc. cbn [app]. rewrite key_start. reflexivity.
      + rewrite tokens_members in L. change (commas (map member (p :: l))) with (TComma :: member p ++ commas (map member l))%list.
        cbn [length] in *. rewrite !app_length in *. cbn in *. lia.
  Qed.

  Lemma null_cases cases fs n rest : 0 < n -> read_cases o v n cases fs (TNull :: rest) = Ok fs rest.
  Proof. destruct n; [lia|]. reflexivity. Qed.

  Definition case_of (cases : list case) (f : string) : option case := find (fun c => String.eqb f (k_tag c)) cases.

  Lemma cases_decoded cases l : NoDup (map fst l) ->
    (forall f g c d, case_of cases f = Some c -> case_of cases g = Some d -> f <> g -> k_field c <> k_field d) ->
    (forall f j c, In (f, j) l -> case_of cases f = Some c -> exists y, decode o v (k_type c) false j = Some y) ->
    forall fs, exists r, fold_left (case_step cases) l (Some fs) = Some r /\
      (forall f j c y, In (f, j) l -> case_of cases f = Some c -> decode o v (k_type c) false j = Some y ->
        mget (k_field c) r = Some (k_wrap c y)) /\
      (forall n, (forall f j c, In (f, j) l -> case_of cases f = Some c -> k_field c <> n) -> mget n r = mget n fs).
  Proof.
    intros Nd Fd. induction l as [|[f j] l IH]; intros D fs.
    - exists fs. repeat split. intros f j c y [].
    - inversion Nd as [|? ? Nf Nd']; subst. cbn [map fst] in *.
      assert (D' : forall f j c, In (f, j) l -> case_of cases f = Some c -> exists y, decode o v (k_type c) false j = Some y).
      { intros f' j' c' I. apply D. now right. }
      cbn [fold_left]. unfold case_step at 2. cbn [fst snd]. fold (case_of cases f). destruct (case_of cases f) as [c|] eqn:Cf.
      + destruct (D f j c (or_introl eq_refl) Cf) as (y & Dy). rewrite Dy. cbn [option_map].
        destruct (IH Nd' D' (mset (k_field c) (k_wrap c y) fs)) as (r & E & R1 & R2). exists r. split; [exact E|]. split.
        * intros f' j' c' y' [Q|I] C' D2; [|eapply R1; eauto]. injection Q as <- <-.
          assert (c' = c) as -> by congruence. assert (y' = y) as -> by congruence. rewrite R2.
          -- rewrite mget_mset. now rewrite String.eqb_refl.
          -- intros g k d I Cd. apply (Fd g f); auto. intros ->. apply Nf. now apply in_map with (f := fst) in I.
        * intros n H. rewrite R2; [|intros; eapply H; [right|]; eauto]. rewrite mget_mset.
          destruct (String.eqb_spec n (k_field c)) as [->|]; [|reflexivity].
          exfalso. exact (H f j c (or_introl eq_refl) Cf eq_refl).
      + destruct (IH Nd' D' fs) as (r & E & R1 & R2). exists r. split; [exact E|]. split.
        * intros f' j' c' y' [Q|I] C' D2; [|eapply R1; eauto]. injection Q as <- <-. congruence.
        * intros n H. apply R2. intros f' j' c' I. apply (H f' j'). now right.
  Qed.

  Lemma whole_read m p x j : response_whole m p -> represents o v (p_type p) x j ->
    exists y, read_response o v m (tokens j) = Ok [(go_private (p_name p), y)] [] /\ same v (p_type p) false x y.
  Proof.
    assert (B : forall q, called ["body"] (p_name q) -> go_private (p_name q) = "body").
    { intros q C. unfold go_private. rewrite C. reflexivity. }
    intros Wh R. destruct (represented_read _ _ _ (S (fuel (tokens j))) R ltac:(unfold fuel; lia)) as (y & E & Sm). exists y. split; [|exact Sm].
    destruct Wh as [(ws & I & C & F)|(C & F)].
    - assert (G := proj2 (first_parameter nBody ["body"] m p eq_refl) F). destruct F as (l1 & l2 & _ & Cp & _). rewrite (B p Cp).
      unfold read_response. cbv zeta. rewrite G, E.
      repeat destruct I as [<-|I]; try contradiction; kinds C; reflexivity.
    - unfold read_response. cbv zeta. kinds C. rewrite (last_single _ _ _ F), E. reflexivity.
  Qed.
End Bodies.
