(** Proofs about the execution of the functions that read the bodies of the responses: the properties. *)
From Coq Require Import Ascii String Bool Arith ZArith NArith Lia Permutation List.
From Verif Require Import GoStrings GoMap GoMapProofs NamesModel ConceptsModel ReporterModel BindingModel GoNamesModel DeclsModel ChecksModel GoTypesModel ObjectsModel ObjectsSpec
  JsonModel JsonSpec JsonProofs3 JsonProofs5 JsonProofs6 ClientsModel JsonCodeModel JsonCodeSpec JsonCodeProofs5 JsonRunSpec JsonMethodsSpec JsonRunProofs6 JsonMethodsProofs4 JsonMethodsProofs5 BindingSpec BindingProofs ChecksSpec.
From Verif Require RequestModel RequestSpec RequestProofs3 RequestProofs4.
Import ListNotations.
Local Open Scope string_scope.

Lemma run_response o pkg v fs structures limit r m l ts n w : reading pkg v fs structures -> In r (resources v) -> In m (r_methods r) -> has_fields m l ->
  2 * length ts + 5 <= n -> 2 * length ts + 3 <= limit ->
  match RequestModel.read_response o v m ts with
  | Ok fields rest => exists l', receive o v structures fs limit n (read_response_func (is_root r) r m) (RStruct l) (MkState w ts) = Received RNil (RStruct l') (MkState w rest) /\ filled v m fields l l'
  | Failed => receive o v structures fs limit n (read_response_func (is_root r) r m) (RStruct l) (MkState w ts) = Interrupted WrongDocument
  | OutOfFuel => False
  end.
Proof.
  intros ((S & R & Co & O) & P & N & D) Ir Im H L1 L2. pose proof R as (_ & _ & _ & RM). pose proof (RM r m Ir Im) as MR.
  assert (SF : forall p, In p (m_params m) -> client_field p = json_parameter_field p) by (intros p Ip; exact (same_field v m MR p Ip)).
  pose proof (response_runs o pkg v fs structures limit P S N R Co O D r m l (fun p Ip Op E => H p Ip Op (eq_trans (f_equal (fun f => mget f l) (SF p Ip)) E)) MR ts Ir Im n w ltac:(unfold fuel; lia) ltac:(unfold fuel; lia)) as Q.
  destruct (RequestModel.read_response o v m ts) as [fields rest| |]; auto. destruct Q as (l' & E & K). exists l'. split; [exact E|]. intros f. specialize (K f).
  destruct (mget f fields); [|exact K]. destruct K as (p & Ip & Op & Fp & G). exists p. rewrite (SF p Ip). auto.
Qed.

Lemma same_parameter v m p q : method_ready v m -> known_method m -> In p (m_params m) -> In q (m_params m) -> go_private (p_name p) = go_private (p_name q) -> p = q.
Proof. intros (_ & _ & N & _) K Ip Iq E. exact (distinct_in (fun p => go_private (p_name p)) (m_params m) p q (N K) Ip Iq E). Qed.

Lemma run_whole_response o pkg v fs structures limit r m l p x j n w : faithful o -> reading pkg v fs structures -> In r (resources v) -> In m (r_methods r) -> has_fields m l ->
  RequestSpec.response_whole m p -> RequestSpec.represents o v (p_type p) x j -> 2 * length (tokens j) + 5 <= n -> 2 * length (tokens j) + 3 <= limit ->
  exists y l', receive o v structures fs limit n (read_response_func (is_root r) r m) (RStruct l) (MkState w (tokens j)) = Received RNil (RStruct l') (MkState w []) /\
    same v (p_type p) false x y /\ mget (client_field p) l' = Some (run_field v (p_type p) y) /\ forall f, f <> client_field p -> mget f l' = mget f l.
Proof.
  intros F Rd Ir Im H Wh Rp L1 L2. pose proof Rd as ((S & R & _) & _). pose proof (ready_compiles v R) as Co. pose proof R as (_ & _ & _ & RM). pose proof (RM r m Ir Im) as MR.
  assert (SF : forall p, In p (m_params m) -> client_field p = json_parameter_field p) by (intros q Iq; exact (same_field v m MR q Iq)).
  destruct (RequestProofs3.whole_read o v S Co F m p x j Wh Rp) as (y & E & Sm).
  pose proof (run_response o pkg v fs structures limit r m l (tokens j) n w Rd Ir Im H L1 L2) as Q. rewrite E in Q. destruct Q as (l' & Q & K).
  assert (KI : known_method m /\ In p (m_params m)).
  { destruct Wh as [(ws & I & C & (l1 & l2 & -> & _))|(C & E')].
    - split; [exists ws; split; [|exact C]|apply in_or_app; right; now left]. cbn in I |- *. intuition.
    - split; [exists ["post"]; split; [cbn; auto 10|exact C]|]. assert (I : In p (filter p_out (m_params m))) by (rewrite E'; now left). now apply filter_In in I. }
  destruct KI as (KM & Ip). exists y, l'. split; [exact Q|]. split; [exact Sm|]. split.
  - specialize (K (go_private (p_name p))). cbn [mget] in K. rewrite String.eqb_refl in K. destruct K as (q & Iq & _ & Fq & G). rewrite (SF q Iq) in Fq.
    rewrite (same_parameter v m q p MR KM Iq Ip Fq) in *. rewrite (SF p Ip). exact G.
  - intros f Nf. specialize (K f). cbn [mget] in K. destruct (String.eqb f (go_private (p_name p))) eqn:Ef; [|exact K]. apply String.eqb_eq in Ef. exfalso. apply Nf. rewrite (SF p Ip). exact Ef.
Qed.

Lemma run_object_response o pkg v fs structures limit r m l ms n w : faithful o -> reading pkg v fs structures -> In r (resources v) -> In m (r_methods r) -> has_fields m l ->
  RequestSpec.separable m -> RequestSpec.response_object m -> response_params m <> [] -> clean (JObj ms) -> NoDup (map fst ms) ->
  (forall p f j, RequestSpec.response_parameter m p -> RequestSpec.member_for m p f -> In (f, j) ms -> exists x, RequestSpec.represents o v (p_type p) x j) ->
  2 * length (tokens (JObj ms)) + 5 <= n -> 2 * length (tokens (JObj ms)) + 3 <= limit ->
  exists l', receive o v structures fs limit n (read_response_func (is_root r) r m) (RStruct l) (MkState w (tokens (JObj ms))) = Received RNil (RStruct l') (MkState w []) /\
    (forall p f j x, RequestSpec.response_parameter m p -> RequestSpec.member_for m p f -> In (f, j) ms -> RequestSpec.represents o v (p_type p) x j ->
      exists y z, same v (p_type p) false x y /\ RequestSpec.received v m p y z /\ mget (client_field p) l' = Some (run_field v (p_type p) z)) /\
    (forall p f, RequestSpec.response_parameter m p -> RequestSpec.member_for m p f -> ~ In f (map fst ms) -> mget (client_field p) l' = mget (client_field p) l).
Proof.
  intros F Rd Ir Im H Se Ro Np Cl Nd Rep L1 L2. pose proof Rd as ((S & R & _) & _). pose proof (ready_compiles v R) as Co. pose proof R as (_ & _ & _ & RM). pose proof (RM r m Ir Im) as MR.
  assert (SF : forall p, In p (m_params m) -> client_field p = json_parameter_field p) by (intros q Iq; exact (same_field v m MR q Iq)).
  destruct (RequestProofs4.object_members o v m Se S Co F ms Ro Np Cl Nd Rep) as (fields & E & M1 & M2).
  pose proof (run_response o pkg v fs structures limit r m l (tokens (JObj ms)) n w Rd Ir Im H L1 L2) as Q. rewrite E in Q. destruct Q as (l' & Q & K). exists l'. split; [exact Q|].
  assert (U : forall p q, RequestSpec.response_parameter m p -> In q (m_params m) -> p_out q = true -> go_private (p_name p) = go_private (p_name q) -> p = q).
  { intros p q Hp Iq Oq Eg. destruct Ro as [C|[C|A]].
    - apply (same_parameter v m p q MR); auto; [exists ["list"]; split; [cbn; auto 10|exact C]|exact (proj1 Hp)].
    - apply (same_parameter v m p q MR); auto; [exists ["search"]; split; [cbn; auto 10|exact C]|exact (proj1 Hp)].
    - apply Se; auto. split; [exact Iq|]. split; [exact Oq|]. intros C. exfalso. apply (A ["search"]); [cbn; auto 10|exact C]. }
  split.
  - intros p f j x Hp Mf Ij Rp. destruct (M1 p f j x Hp Mf Ij Rp) as (y & z & G & Sm & Rc). exists y, z. split; [exact Sm|]. split; [exact Rc|].
    specialize (K (go_private (p_name p))). rewrite G in K. destruct K as (q & Iq & Oq & Fq & Gq). rewrite (SF q Iq) in Fq. rewrite (U p q Hp Iq Oq (eq_sym Fq)) in *. rewrite (SF q Iq). exact Gq.
  - intros p f Hp Mf Nf. specialize (K (go_private (p_name p))). rewrite (M2 p f Hp Mf Nf) in K. rewrite (SF p (proj1 Hp)). exact K.
Qed.
