(** Proofs about the execution of the code that writes JSON documents. *)
From Coq Require Import Ascii String Bool Arith ZArith NArith Lia Permutation List.
From Verif Require Import GoStrings GoMap GoMapProofs NamesModel ConceptsModel ReporterModel BindingModel GoNamesModel GoTimeModel DeclsModel ChecksModel GoTypesModel
  ObjectsModel ObjectsSpec ObjectsProofs ObjectsProofs2 JsonModel JsonSpec JsonProofs3 JsonCodeModel JsonRunSpec.
Import ListNotations.
Local Open Scope string_scope.

(** * What is written *)

Lemma wcat_nil_l w : wcat (WOk []) w = w.
Proof. now destruct w. Qed.
Lemma wcat_nil_r w : wcat w (WOk []) = w.
Proof. destruct w; cbn; rewrite ?app_nil_r; auto. Qed.
Lemma wcat_assoc a b c : wcat a (wcat b c) = wcat (wcat a b) c.
Proof. destruct a, b, c; cbn; rewrite ?app_assoc; auto. Qed.
Lemma wcat_panic a b : wcat a b = WPanic <-> a = WPanic \/ b = WPanic.
Proof. destruct a, b; cbn; split; auto; try discriminate; intros [H|H]; discriminate. Qed.
Lemma wcat_panic_r a : wcat a WPanic = WPanic.
Proof. now destruct a. Qed.

Section Writing.
  Context (o : oracle) (constants : list (string * string)) (structures : string -> option (list (string * gv))) (limit : nat).
  Context (call : string -> list gv -> state -> answer).
  Notation eval := (eval o constants structures limit call).
  Notation exec := (exec o constants structures limit call).
  Notation blk := (block o constants structures limit call).

  Lemma block_cons e s t l : blk e s (t :: l) = match exec e s t with Next e s => blk e s l | f => f end.
  Proof. reflexivity. Qed.
  Lemma block_app l1 : forall e s l2, blk e s (l1 ++ l2)%list = match blk e s l1 with Next e s => blk e s l2 | f => f end.
  Proof.
    induction l1 as [|t l1 IH]; intros e s l2; [reflexivity|]. cbn [app]. rewrite !block_cons. destruct (exec e s t); auto.
  Qed.

  (** The statements write [w], without reading anything, and change the variables to [e']. *)
  Definition emits (e : frames) (l : list stm) (w : written) (e' : frames) : Prop := forall s, st_out s <> WPanic ->
    blk e s l = match w with WPanic => Stops Panic | _ => Next e' (MkState (wcat (st_out s) w) (st_in s)) end.

  Lemma emits_nil e : emits e [] (WOk []) e.
  Proof. intros [w i] N. cbn. now rewrite wcat_nil_r. Qed.
  Lemma emits_app e1 e2 e3 l1 l2 w1 w2 : emits e1 l1 w1 e2 -> emits e2 l2 w2 e3 -> emits e1 (l1 ++ l2) (wcat w1 w2) e3.
  Proof.
    intros H1 H2 s N. rewrite block_app, H1 by auto. destruct w1 as [l| |]; [| |reflexivity].
    - rewrite H2 by (cbn; rewrite wcat_panic; intros [X|X]; [auto|discriminate]). cbn [st_out st_in]. rewrite <- wcat_assoc. now destruct w2.
    - rewrite H2 by (cbn; rewrite wcat_panic; intros [X|X]; [auto|discriminate]). cbn [st_out st_in]. rewrite <- wcat_assoc. now destruct w2.
  Qed.
  Lemma emits_cons e1 e2 e3 t l w1 w2 : emits e1 [t] w1 e2 -> emits e2 l w2 e3 -> emits e1 (t :: l) (wcat w1 w2) e3.
  Proof. exact (emits_app e1 e2 e3 [t] l w1 w2). Qed.
  (** A statement that writes nothing. *)
  Lemma emits_silent e t e' : (forall s, exec e s t = Next e' s) -> emits e [t] (WOk []) e'.
  Proof. intros H s N. cbn [block]. rewrite H. rewrite wcat_nil_r. now destruct s. Qed.
  Lemma emits_skip e1 e2 e3 t l w : (forall s, exec e1 s t = Next e2 s) -> emits e2 l w e3 -> emits e1 (t :: l) w e3.
  Proof. intros H E. rewrite <- (wcat_nil_l w). eapply emits_cons; [now apply emits_silent|exact E]. Qed.
  Lemma emits_panic e l e' e'' : emits e l WPanic e' -> emits e l WPanic e''.
  Proof. intros H s N. now rewrite H. Qed.
  Lemma emits_stop e t l e' e'' : emits e [t] WPanic e' -> emits e (t :: l) WPanic e''.
  Proof. intros H s N. rewrite block_cons. specialize (H s N). cbn [block] in H. destruct (exec e s t); try discriminate. exact H. Qed.

  Lemma emits_if e c a b (x : bool) w f e' : (forall s, eval e s c = Gives (RBool x) s) -> emits ([] :: e) (if x then a else b) w (f :: e') ->
    emits e [TIf c a b] w e'.
  Proof.
    intros H E s N. assert (exec e s (TIf c a b) = leave (blk ([] :: e) s (if x then a else b))) as X.
    { cbn [JsonRunSpec.exec]. rewrite H. now destruct x. }
    rewrite block_cons, X, (E s N). now destruct w.
  Qed.

  Lemma emits_write0 e m w : lookup e "stream" = Some RStream -> (forall s, method_of o limit RStream m [] s = outputs w s) -> w <> WPanic -> emits e [write m []] w e.
  Proof.
    intros L H W s N. unfold write, the_stream. cbn [block JsonRunSpec.exec perform JsonRunSpec.eval]. rewrite L, H. unfold outputs. now destruct w.
  Qed.
  Lemma emits_write1 e m a g w : lookup e "stream" = Some RStream -> (forall s, eval e s a = Gives g s) -> match a with XAddr _ => False | _ => True end ->
    setter_field m = None -> (forall s, method_of o limit RStream m [g] s = outputs w s) -> w <> WPanic -> emits e [write m [a]] w e.
  Proof.
    intros L A X S H W s N. unfold write, the_stream. cbn [block JsonRunSpec.exec].
    assert (Y : perform o constants structures limit call e s (XMethod (XVar "stream") m [a]) =
      match eval e s (XMethod (XVar "stream") m [a]) with Gives _ s => Next e s | Ends x => Stops x end).
    { cbn [perform]. rewrite S. now destruct a. }
    rewrite Y. cbn [JsonRunSpec.eval]. rewrite L, A, H. unfold outputs. now destruct w.
  Qed.
  (** A call to a function that writes. *)
  Lemma emits_call e f a g w : lookup e "stream" = Some RStream -> (forall s, eval e s a = Gives g s) ->
    (forall s, st_out s <> WPanic -> call f [g; RStream] s = match w with WPanic => Ends Panic | _ => outputs w s end) ->
    emits e [TDo (XCall f [a; the_stream])] w e.
  Proof.
    intros L A H s N. unfold the_stream. cbn [block JsonRunSpec.exec].
    assert (Y : perform o constants structures limit call e s (XCall f [a; XVar "stream"]) =
      match eval e s (XCall f [a; XVar "stream"]) with Gives _ s => Next e s | Ends x => Stops x end) by (cbn [perform]; now destruct a).
    rewrite Y. cbn [JsonRunSpec.eval]. rewrite A, L, H by auto. unfold outputs. now destruct w.
  Qed.
  (** The loop that writes the items of a slice. *)
  Lemma emits_each e x y body : forall gs ws i, x <> y ->
    Forall2 (fun g w => forall j, (0 <= j)%Z -> exists f f', emits ([] :: [(x, RInt j); (y, g)] :: e) body (wcat (if Z.ltb 0 j then WOk [TComma] else WOk []) w) (f :: f' :: e)) gs ws ->
    forall s, st_out s <> WPanic ->
    each (numbered (Z.of_nat i) gs) e s (fun p e s => leave (leave (blk ([] :: [(x, RInt (fst p)); (y, snd p)] :: e) s body))) =
      match write_items i ws with WPanic => Stops Panic | w => Next e (MkState (wcat (st_out s) w) (st_in s)) end.
  Proof.
    intros gs ws i D F. revert i. induction F as [|g w gs ws H F IH]; intros i s N.
    - cbn. rewrite wcat_nil_r. now destruct s.
    - cbn [numbered each write_items fst snd]. destruct (H (Z.of_nat i) ltac:(lia)) as (f & f' & E). rewrite (E s N).
      replace (Z.ltb 0 (Z.of_nat i)) with (Nat.ltb 0 i) by (destruct i; reflexivity). rewrite (wcat_assoc (if Nat.ltb 0 i then WOk [TComma] else WOk []) w).
      set (c := wcat (if Nat.ltb 0 i then WOk [TComma] else WOk []) w) in *.
      destruct c as [l| |]; [| |reflexivity]; cbn [leave tl]; replace (Z.of_nat i + 1)%Z with (Z.of_nat (i + 1)) by lia;
        rewrite IH by (cbn; rewrite wcat_panic; intros [X|X]; [auto|discriminate]); cbn [st_out st_in]; destruct (write_items (i + 1) ws); rewrite <- ?wcat_assoc; reflexivity.
  Qed.
End Writing.
