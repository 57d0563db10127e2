(** Proofs about the OpenAPI buffer: what is written by the calls. *)
From Coq Require Import Ascii String Bool Arith ZArith NArith Lia List.
From Verif Require Import GoStrings GoStringsProofs GoMap NamesModel ConceptsModel ReporterModel ReaderModel ReaderSpec ReaderProofs7 BindingModel
  ObjectsModel ObjectsSpec TextModel BufferModel BufferSpec BufferProofs BufferProofs3 JsonModel JsonSpec JsonTextModel JsonTextSpec JsonTextProofs
  ChecksModel ChecksSpec OpenapiModel OpenapiSpec.
Import ListNotations.
Local Open Scope string_scope.

(** * Documents under construction *)

(** The objects and arrays that have been started, with their names and what has been added to them. *)
Inductive frame :=
| FObj (name : option string) (acc : list (string * json))
| FArr (name : option string) (acc : list json).

Definition scalar_json (x : json) : bool := match x with JStr _ | JBool _ => true | _ => false end.

(** Adds a value to the container at the top. *)
Definition push_value (name : option string) (x : json) (st : list frame) : option (list frame) :=
  match name, st with
  | Some n, FObj m acc :: st => Some (FObj m (acc ++ [(n, x)])%list :: st)
  | None, FArr m acc :: st => Some (FArr m (acc ++ [x])%list :: st)
  | _, _ => None
  end.
Definition can_push (name : option string) (st : list frame) : bool :=
  match name, st with
  | Some _, FObj _ _ :: _ => true
  | None, FArr _ _ :: _ => true
  | _, _ => false
  end.
Definition step (c : command) (st : list frame) : option (list frame) :=
  match c with
  | StartObject n => if can_push n st then Some (FObj n [] :: st) else None
  | StartArray n => if can_push n st then Some (FArr n [] :: st) else None
  | EndObject => match st with FObj n acc :: st => push_value n (JObj acc) st | _ => None end
  | EndArray => match st with FArr n acc :: f :: st => push_value n (JArr acc) (f :: st) | _ => None end
  | Field n x => if scalar_json x then push_value (Some n) x st else None
  | Item x => if scalar_json x then push_value None x st else None
  | Complain _ => Some st
  | Crash | Forever => None
  end.
Fixpoint build (l : list command) (st : list frame) : option (list frame) :=
  match l with
  | [] => Some st
  | c :: l => match step c st with Some st => build l st | None => None end
  end.

Lemma build_app a b st : build (a ++ b)%list st = match build a st with Some st => build b st | None => None end.
Proof. revert st. induction a as [|c a IH]; intros st; [reflexivity|]. cbn [app build]. destruct (step c st); auto. Qed.

(** * The tokens of a document under construction *)

Definition pair_tokens (p : string * json) : list token := let (k, x) := p in TStr k :: TColon :: tokens x.
Definition comma (n : nat) : list token := if Nat.ltb 0 n then [TComma] else [].
Definition label (name : option string) : list token := match name with Some n => [TStr n; TColon] | None => [] end.
Definition bracket (f : frame) : token := match f with FObj _ _ => TLBrace | FArr _ _ => TLBracket end.
Definition frame_name (f : frame) : option string := match f with FObj n _ => n | FArr n _ => n end.
Definition content (f : frame) : list (list token) :=
  match f with FObj _ acc => map pair_tokens acc | FArr _ acc => map tokens acc end.
Definition bump (name : option string) (n : nat) : nat := match name with Some _ => S n | None => n end.

Lemma separated_snoc l x : separated (l ++ [x])%list = (separated l ++ comma (length l) ++ x)%list.
Proof.
  induction l as [|a l IH]; [reflexivity|]. destruct l as [|b l]; [reflexivity|].
  change (separated ((a :: b :: l) ++ [x])) with (a ++ TComma :: separated ((b :: l) ++ [x]))%list. rewrite IH. cbn. now rewrite <- app_assoc.
Qed.

(** The state of the buffer corresponds to the document. *)
Inductive tracks : list frame -> list token -> list nat -> Prop :=
| tr_bottom acc n : (n = 0 <-> acc = []) -> tracks [FArr None acc] (separated (map tokens acc)) [n]
| tr_frame f parent st n ts m ms : tracks (parent :: st) ts (m :: ms) -> can_push (frame_name f) (parent :: st) = true ->
    (n = 0 <-> content f = []) ->
    tracks (f :: parent :: st) (ts ++ comma m ++ label (frame_name f) ++ [bracket f] ++ separated (content f))%list (n :: bump (frame_name f) m :: ms).

Lemma tracks_top f st ts n ms : tracks (f :: st) ts (n :: ms) -> n = 0 <-> content f = [].
Proof. inversion 1; subst; [|assumption]. cbn. rewrite H3. split; [now intros ->|]. destruct acc; [auto|discriminate]. Qed.

Lemma tracks_stack st ts ns : tracks st ts ns -> exists f r n m, st = f :: r /\ ns = n :: m.
Proof. inversion 1; subst; eauto 8. Qed.

Lemma tracks_comma f st ts n ms : tracks (f :: st) ts (n :: ms) -> comma n = comma (length (content f)).
Proof.
  intros H. apply tracks_top in H. unfold comma. destruct (content f) as [|x l]; [now rewrite (proj2 H)|]. destruct n; [now discriminate (proj1 H)|reflexivity].
Qed.

(** Adding a value. *)
Lemma tracks_push name x st ts n ms k st' : tracks st ts (n :: ms) -> push_value name x st = Some st' -> 0 < k ->
  tracks st' (ts ++ comma n ++ label name ++ tokens x)%list (k :: ms).
Proof.
  intros T P K. destruct st as [|f st]; [now inversion T|]. pose proof (tracks_comma _ _ _ _ _ T) as C.
  destruct name as [name|], f as [m acc|m acc]; try discriminate; injection P as <-.
  - inversion T; subst. cbn [frame_name bracket content] in *.
    assert (E : ((ts0 ++ comma m0 ++ label m ++ [TLBrace] ++ separated (map pair_tokens acc)) ++ comma n ++ label (Some name) ++ tokens x =
      ts0 ++ comma m0 ++ label (frame_name (FObj m (acc ++ [(name, x)])%list)) ++ [bracket (FObj m (acc ++ [(name, x)])%list)] ++ separated (content (FObj m (acc ++ [(name, x)])%list)))%list).
    { cbn [frame_name bracket content]. rewrite map_app. cbn [map]. rewrite separated_snoc, <- C. now rewrite <- !app_assoc. }
    rewrite E. apply (tr_frame (FObj m (acc ++ [(name, x)])%list)); auto. cbn. rewrite map_app. split; [lia|]. now destruct (map pair_tokens acc).
  - inversion T; subst.
    + cbn [label app]. replace (separated (map tokens acc) ++ comma n ++ tokens x)%list with (separated (map tokens (acc ++ [x])%list)).
      * apply tr_bottom. split; [lia|]. now destruct acc.
      * rewrite map_app. cbn [map]. rewrite separated_snoc. cbn [content] in C. now rewrite C.
    + cbn [frame_name bracket content] in *.
      assert (E : ((ts0 ++ comma m0 ++ label m ++ [TLBracket] ++ separated (map tokens acc)) ++ comma n ++ label None ++ tokens x =
        ts0 ++ comma m0 ++ label (frame_name (FArr m (acc ++ [x])%list)) ++ [bracket (FArr m (acc ++ [x])%list)] ++ separated (content (FArr m (acc ++ [x])%list)))%list).
      { cbn [frame_name bracket content label app]. rewrite map_app. cbn [map]. rewrite separated_snoc, <- C. now rewrite <- !app_assoc. }
      rewrite E. apply (tr_frame (FArr m (acc ++ [x])%list)); auto. cbn. rewrite map_app. split; [lia|]. now destruct (map tokens acc).
Qed.

Lemma can_push_value name x st : can_push name st = true -> exists st', push_value name x st = Some st'.
Proof. destruct name, st as [|[m acc|m acc] st]; try discriminate; cbn; eauto. Qed.
Lemma push_can name x st st' : push_value name x st = Some st' -> can_push name st = true.
Proof. destruct name, st as [|[m acc|m acc] st]; try discriminate; reflexivity. Qed.

Definition complaints (c : command) : list report := match c with Complain r => [r] | _ => [] end.

Lemma step_executed c st b st' : step c st = Some st' -> tracks st (ob_tokens b) (ob_stack b) ->
  exists b', execute c b = Done b' /\ tracks st' (ob_tokens b') (ob_stack b') /\ ob_reports b' = (ob_reports b ++ complaints c)%list.
Proof.
  intros St T. destruct b as [ts ns rs]. cbn [ob_tokens ob_stack ob_reports] in *.
  assert (V : forall name x, scalar_json x = true -> push_value name x st = Some st' -> exists b', buffer_value name x (MkOpenapiBuffer ts ns rs) = Done b' /\
    tracks st' (ob_tokens b') (ob_stack b') /\ ob_reports b' = (rs ++ [])%list).
  { intros name x X P. unfold buffer_value. cbn [ob_stack ob_tokens ob_reports]. destruct ns as [|n ns]; [inversion T|]. eexists. split; [reflexivity|].
    cbn [ob_tokens ob_stack ob_reports]. split; [|now rewrite app_nil_r]. pose proof (tracks_push _ _ _ _ _ _ (S n) _ T P ltac:(lia)) as H.
    destruct x; try discriminate; exact H. }
  assert (O : forall f, content f = [] -> can_push (frame_name f) st = true -> exists b', buffer_start (bracket f) (frame_name f) (MkOpenapiBuffer ts ns rs) = Done b' /\
    tracks (f :: st) (ob_tokens b') (ob_stack b') /\ ob_reports b' = (rs ++ [])%list).
  { intros f E P. unfold buffer_start. cbn [ob_stack ob_tokens ob_reports]. destruct (tracks_stack _ _ _ T) as (g & r & n & ms & -> & ->).
    assert (H : tracks (f :: g :: r) (ts ++ comma n ++ label (frame_name f) ++ [bracket f] ++ separated (content f))%list (0 :: bump (frame_name f) n :: ms))
      by (apply tr_frame; auto; now split).
    rewrite E, app_nil_r in H. destruct (frame_name f); (eexists; split; [reflexivity|]; cbn [ob_tokens ob_stack ob_reports]; split; [exact H|now rewrite app_nil_r]). }
  assert (E : forall f r close st0, st = f :: r -> r <> [] -> push_value (frame_name f) (match f with FObj _ acc => JObj acc | FArr _ acc => JArr acc end) r = Some st0 ->
    close = match f with FObj _ _ => TRBrace | FArr _ _ => TRBracket end -> exists b', buffer_end close (MkOpenapiBuffer ts ns rs) = Done b' /\
    tracks st0 (ob_tokens b') (ob_stack b') /\ ob_reports b' = (rs ++ [])%list).
  { intros f r close st0 -> R P ->. unfold buffer_end. inversion T; subst; [congruence|]. cbn [ob_stack ob_tokens ob_reports]. eexists. split; [reflexivity|].
    cbn [ob_stack ob_tokens ob_reports]. split; [|now rewrite app_nil_r].
    match goal with H : tracks (parent :: ?r) _ _ |- _ => pose proof (tracks_push _ _ _ _ _ _ (S (bump (frame_name f) m)) _ H P ltac:(lia)) as G end.
    destruct f; cbn [bracket content frame_name] in *; (match goal with |- tracks _ ?t _ => match type of G with tracks _ ?t' _ => replace t with t'; [exact G|] end end);
      cbn [tokens]; rewrite <- !app_assoc; reflexivity. }
  destruct c; cbn [step] in St; cbn [execute complaints].
  - destruct (can_push name st) eqn:P; [|discriminate]. injection St as <-. now apply (O (FObj name [])).
  - destruct st as [|[m acc|m acc] r]; try discriminate. destruct r as [|g r]; [destruct m; discriminate|]. now apply (E (FObj m acc) (g :: r)).
  - destruct (scalar_json value) eqn:X; [|discriminate]. now apply V.
  - destruct (can_push name st) eqn:P; [|discriminate]. injection St as <-. now apply (O (FArr name [])).
  - destruct st as [|[m acc|m acc] r]; try discriminate. destruct r as [|g r]; [discriminate|].  now apply (E (FArr m acc) (g :: r)).
  - destruct (scalar_json value) eqn:X; [|discriminate]. now apply V.
  - injection St as <-. eexists. split; [reflexivity|]. auto.
  - discriminate.
  - discriminate.
Qed.

Lemma build_executed l : forall st b st', build l st = Some st' -> tracks st (ob_tokens b) (ob_stack b) ->
  exists b', execute_all l b = Done b' /\ tracks st' (ob_tokens b') (ob_stack b') /\ ob_reports b' = (ob_reports b ++ flat_map complaints l)%list.
Proof.
  induction l as [|c l IH]; intros st b st' B T; cbn [build] in B.
  - injection B as <-. exists b. cbn. rewrite app_nil_r. auto.
  - destruct (step c st) as [st1|] eqn:S; [|discriminate]. destruct (step_executed _ _ _ _ S T) as (b1 & E1 & T1 & R1).
    destruct (IH _ _ _ B T1) as (b2 & E2 & T2 & R2). exists b2. cbn [execute_all flat_map]. rewrite E1, E2, R2, R1. rewrite <- app_assoc. auto.
Qed.

(** * Calls that don't fail *)

Definition quiet_command (c : command) : Prop :=
  match c with Crash | Forever => False | Complain r => errors_in [r] 0 | _ => True end.
Definition quiet (l : list command) : Prop := Forall quiet_command l.

Lemma quiet_app a b : quiet (a ++ b)%list <-> quiet a /\ quiet b.
Proof. apply Forall_app. Qed.

Lemma executed_quiet l : forall b b', execute_all l b = Done b' -> exists more, ob_reports b' = (ob_reports b ++ more)%list /\
  (errors_in more 0 -> quiet l).
Proof.
  induction l as [|c l IH]; intros b b' E; cbn [execute_all] in E.
  - injection E as <-. exists []. rewrite app_nil_r. split; [reflexivity|]. constructor.
  - destruct (execute c b) as [b1| |] eqn:E1; try discriminate. destruct (IH _ _ E) as (more & R & Q).
    assert (H : ob_reports b1 = (ob_reports b ++ complaints c)%list /\ c <> Crash /\ c <> Forever).
    { destruct c; cbn [execute] in E1; unfold buffer_start, buffer_end, buffer_value in E1;
        repeat match type of E1 with (match ?x with _ => _ end) = _ => destruct x end; try discriminate;
        injection E1 as <-; cbn [ob_reports complaints]; rewrite ?app_nil_r; repeat split; discriminate. }
    destruct H as (H & N1 & N2). exists (complaints c ++ more)%list. rewrite R, H, <- app_assoc. split; [reflexivity|].
    intros Z. apply errors_zero_app in Z as [Z1 Z2]. constructor; [|exact (Q Z2)]. destruct c; cbn; try exact I; try congruence. exact Z1.
Qed.
