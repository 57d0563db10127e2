(** Memories used in the examples. *)
From Coq Require Import Ascii String Bool Arith ZArith NArith Lia List.
From Verif Require Import GoStrings GoMap NamesModel NamesSpec ConceptsModel ConceptsSpec ChecksModel GoTimeModel ObjectsModel ObjectsSpec ObjectsProofs ObjectsProofs2
  ObjectsExamples HeapModel HeapSpec HeapProofs HeapProofs2 HeapProofs3.
Import ListNotations.
Local Open Scope string_scope.

(** Puts a value in new memory. *)
Definition put_all (put : value -> memory -> memory * ref) : list value -> memory -> memory * list ref :=
  fix go (l : list value) (m : memory) {struct l} : memory * list ref :=
    match l with
    | [] => (m, [])
    | x :: l => let '(m, r) := put x m in let '(m, rs) := go l m in (m, r :: rs)
    end.

Definition put_pairs (put : value -> memory -> memory * ref) : list (string * value) -> memory -> memory * list (string * ref) :=
  fix go (l : list (string * value)) (m : memory) {struct l} : memory * list (string * ref) :=
    match l with
    | [] => (m, [])
    | (k, x) :: l => let '(m, r) := put x m in let '(m, rs) := go l m in (m, (k, r) :: rs)
    end.

Fixpoint put (x : value) (m : memory) {struct x} : memory * ref :=
  match x with
  | VScalar s => (m, RScalar s)
  | VNil => (m, RNil)
  | VObject o => let '(m, rs) := put_all put (o_fields o) m in alloc (CObject (MkObject (o_bits o) (o_id o) (o_href o) rs)) m
  | VSlice l => let '(m, rs) := put_all put l m in alloc (CSlice rs) m
  | VList h b s => let '(m, r) := put s m in alloc (CList h b r) m
  | VMap l => let '(m, rs) := put_pairs put l m in alloc (CMap rs) m
  end.

Definition puts (x : value) : Prop := forall m, extends m (fst (put x m)) /\ holds (fun a => length m <= a) (fst (put x m)) (snd (put x m)) x.

Lemma put_all_ok : forall l, Forall puts l -> forall m, extends m (fst (put_all put l m)) /\
  all2 (holds (fun a => length m <= a) (fst (put_all put l m))) (snd (put_all put l m)) l.
Proof.
  induction 1 as [|x l Hx Hl IH]; intros m; [split; [apply extends_refl|reflexivity]|]. cbn. destruct (Hx m) as [E1 H1]. destruct (put x m) as [m1 r].
  destruct (IH m1) as [E2 H2]. cbn in *. destruct (put_all put l m1) as [m2 rs]. cbn in *. split; [now apply (extends_trans m m1)|].
  split; [now apply (holds_extends _ m1)|]. revert H2. apply all2_imp, Forall_forall. intros y _ q. apply holds_weaken. apply extends_length in E1. lia.
Qed.
Lemma put_pairs_ok : forall l, Forall (fun p => puts (snd p)) l -> forall m, extends m (fst (put_pairs put l m)) /\
  map fst (snd (put_pairs put l m)) = map fst l /\ all2 (holds (fun a => length m <= a) (fst (put_pairs put l m))) (map snd (snd (put_pairs put l m))) (map snd l).
Proof.
  induction 1 as [|[k x] l Hx Hl IH]; intros m; [split; [apply extends_refl|split; reflexivity]|]. cbn in *. destruct (Hx m) as [E1 H1]. destruct (put x m) as [m1 r].
  destruct (IH m1) as [E2 [F2 H2]]. cbn in *. destruct (put_pairs put l m1) as [m2 rs]. cbn in *. split; [now apply (extends_trans m m1)|]. split; [congruence|].
  split; [now apply (holds_extends _ m1)|]. revert H2. apply all2_imp, Forall_forall. intros y _ q. apply holds_weaken. apply extends_length in E1. lia.
Qed.

Lemma put_ok : forall x, puts x.
Proof.
  induction x as [s| |o IH|l IH|h b s IHs IHl|l IH] using value_ind2; intros m; cbn [put].
  - split; [apply extends_refl|reflexivity].
  - split; [apply extends_refl|reflexivity].
  - destruct (put_all_ok _ IH m) as [E H]. destruct (put_all put (o_fields o) m) as [m1 rs]. cbn in *. split; [apply (extends_trans _ m1 _ E); now eexists|].
    eexists (length m1), _. split; [reflexivity|]. split; [now apply extends_length|]. split; [apply alloc_nth|]. cbn. repeat (split; [reflexivity|]). now apply all2_alloc.
  - destruct (put_all_ok _ IH m) as [E H]. destruct (put_all put l m) as [m1 rs]. cbn [fst snd alloc] in *. split; [apply (extends_trans _ m1 _ E); now eexists|].
    apply holds_slice_new; [now apply extends_length|exact H].
  - destruct (IHs m) as [E H]. destruct (put s m) as [m1 r]. cbn [fst snd alloc] in *. split; [apply (extends_trans _ m1 _ E); now eexists|].
    eexists (length m1), _. split; [reflexivity|]. split; [now apply extends_length|]. split; [apply alloc_nth|]. apply (holds_extends _ m1); [now eexists|exact H].
  - destruct (put_pairs_ok _ IH m) as (E & F & H). destruct (put_pairs put l m) as [m1 rs]. cbn [fst snd alloc] in *. split; [apply (extends_trans _ m1 _ E); now eexists|].
    eexists (length m1), rs. split; [reflexivity|]. split; [now apply extends_length|]. split; [apply alloc_nth|]. split; [exact F|].
    apply (all2_snd (holds _ _)). now apply all2_alloc.
Qed.

(** A memory that contains only a builder, at the last address. *)
Definition builder_memory (b : object) : memory := fst (put (VObject b) []).
Definition builder_address (b : object) : nat := length (fst (put_all put (o_fields b) [])).

Lemma builder_memory_ok b : holds_builder (fun p => p < builder_address b) (builder_memory b) (builder_address b) b.
Proof.
  unfold builder_memory, builder_address. cbn [put]. destruct (put_all_ok (o_fields b) (proj2 (Forall_forall _ _) (fun x _ => put_ok x)) []) as [E H].
  destruct (put_all put (o_fields b) []) as [m rs]. cbn [fst snd alloc] in *. split; [lia|]. eexists. split; [apply alloc_nth|]. cbn. repeat (split; [reflexivity|]).
  apply all2_alloc. revert H. apply all2_imp, Forall_forall. intros x _ r. apply holds_frame. intros a c _ N. split; [|exact N]. apply nth_error_Some. congruence.
Qed.

Lemma builder_lt b : builder_address b < length (builder_memory b).
Proof. destruct (builder_memory_ok b) as (_ & c & N & _). apply nth_error_Some. congruence. Qed.

(** What is in the memory can be read again. *)
Fixpoint read (fuel : nat) (m : memory) (r : ref) : option value :=
  match fuel with
  | 0 => None
  | S fuel =>
      match r with
      | RScalar s => Some (VScalar s)
      | RNil => Some VNil
      | RPtr a =>
          match nth_error m a with
          | Some (CObject o) =>
              match sequence (map (read fuel m) (o_fields o)) with
              | Some l => Some (VObject (MkObject (o_bits o) (o_id o) (o_href o) l))
              | None => None
              end
          | Some (CSlice l) => match sequence (map (read fuel m) l) with Some l => Some (VSlice l) | None => None end
          | Some (CList h b s) => match read fuel m s with Some s => Some (VList h b s) | None => None end
          | Some (CMap l) => match sequence (map (fun p => read fuel m (snd p)) l) with Some ys => Some (VMap (combine (map fst l) ys)) | None => None end
          | None => None
          end
      end
  end.

Lemma sequence_hold (f : ref -> option value) (H : ref -> value -> Prop) : forall rs l, sequence (map f rs) = Some l ->
  (forall r x, In r rs -> f r = Some x -> H r x) -> all2 H rs l.
Proof.
  induction rs as [|r rs IH]; intros l E F; cbn in E; [injection E as <-; reflexivity|]. destruct (f r) as [x|] eqn:E1; [|discriminate].
  destruct (sequence (map f rs)) as [l'|]; [|discriminate]. injection E as <-. split; [apply F; [now left|exact E1]|]. apply IH; [reflexivity|]. intros; apply F; [now right|assumption].
Qed.

Lemma read_ok : forall fuel m r x, read fuel m r = Some x -> holds (fun _ => True) m r x.
Proof.
  induction fuel as [|fuel IH]; intros m r x E; [discriminate|]. cbn [read] in E. destruct r as [s| |a]; [injection E as <-; reflexivity|injection E as <-; reflexivity|].
  destruct (nth_error m a) as [[o|l|h b s|l]|] eqn:N; [| | | |discriminate].
  - destruct (sequence (map (read fuel m) (o_fields o))) as [fs|] eqn:Eq; [|discriminate]. injection E as <-. exists a, o. cbn. repeat (split; [reflexivity || exact I || exact N|]).
    apply (sequence_hold (read fuel m)); [exact Eq|]. intros; now apply IH.
  - destruct (sequence (map (read fuel m) l)) as [fs|] eqn:Eq; [|discriminate]. injection E as <-. exists a, l. repeat (split; [reflexivity || exact I || exact N|]).
    apply (sequence_hold (read fuel m)); [exact Eq|]. intros; now apply IH.
  - destruct (read fuel m s) as [s'|] eqn:Eq; [|discriminate]. injection E as <-. exists a, s. repeat (split; [reflexivity || exact I || exact N|]). now apply IH.
  - destruct (sequence (map (fun p => read fuel m (snd p)) l)) as [fs|] eqn:Eq; [|discriminate]. injection E as <-.
    rewrite map_snd in Eq. assert (A : all2 (holds (fun _ => True) m) (map snd l) fs) by (apply (sequence_hold (read fuel m)); [exact Eq|intros; now apply IH]).
    assert (L : length fs = length (map fst l)) by (rewrite map_length, <- (map_length snd l); symmetry; now apply all2_len in A).
    destruct (combine_fst (map fst l) fs L) as [F1 F2]. exists a, l. repeat (split; [reflexivity || exact I || exact N|]). split; [now symmetry|].
    apply (all2_snd (holds _ _)). now rewrite F2.
Qed.

Lemma heap_call_valid : valid_call ex_v ex_t (CallSet 6 (VScalar (SString "c"))).
Proof.
  assert (F : Forall (valid_call ex_v ex_t) [CallSet 6 (VScalar (SString "c"))]) by (apply valid_callb_sound; vm_compute; reflexivity).
  now inversion F.
Qed.

Lemma variadic_example : exists y ty te,
  nth_error (t_attrs ex_t) 12 = Some y /\ typed ex_v (a_type y) (a_link y) (VSlice [VScalar (SString "x")]) /\
  mget (a_type y) (v_types ex_v) = Some ty /\ t_kind ty = ListType /\ a_link y = false /\
  t_element ty = Some "string" /\ mget "string" (v_types ex_v) = Some te /\ t_kind te = ScalarType.
Proof.
  eexists _, _, _. split; [vm_compute; reflexivity|]. split; [apply typedb_sound; vm_compute; reflexivity|].
  split; [vm_compute; reflexivity|]. repeat (split; [vm_compute; reflexivity|]). vm_compute. reflexivity.
Qed.

(** Memory with a new builder and a map. *)
Definition map_memory : memory := [new_ref ex_v ex_t; CMap [("k", RScalar (SString "v"))]].

Lemma read_builder fuel m a b : read fuel m (RPtr a) = Some (VObject b) ->
  (forall c, In c m -> match c with CObject o => Forall (fun r => r <> RPtr a) (o_fields o) | CSlice l => Forall (fun r => r <> RPtr a) l
     | CList _ _ r => r <> RPtr a | CMap l => Forall (fun p => snd p <> RPtr a) l end) ->
  holds_builder (fun q => q <> a) m a b.
Proof.
  intros E F. apply read_ok in E. destruct E as (a' & c & Ea & _ & N & H1 & H2 & H3 & H4). injection Ea as <-. split; [congruence|]. exists c. split; [exact N|].
  repeat (split; [assumption|]).
  assert (W : forall x r, holds (fun _ => True) m r x -> r <> RPtr a -> holds (fun q => q <> a) m r x).
  { assert (In1 : forall p c, nth_error m p = Some c -> In c m) by (intros p c'; apply nth_error_In).
    assert (L : forall (l : list value), Forall (fun x => forall r, holds (fun _ => True) m r x -> r <> RPtr a -> holds (fun q => q <> a) m r x) l ->
      forall rs, Forall (fun r => r <> RPtr a) rs -> all2 (holds (fun _ => True) m) rs l -> all2 (holds (fun q => q <> a) m) rs l).
    { induction 1 as [|x l Hx Hl IH]; intros rs Fr A; [exact A|]. destruct rs as [|r rs]; [contradiction|]. destruct A as [A1 A2].
      inversion Fr; subst. split; auto. }
    induction x as [s| |o IH|l IH|h b' s IHs IHl|l IH] using value_ind2; intros r H R; cbn [holds] in *; try exact H.
    - destruct H as (p & d & -> & _ & Nd & G1 & G2 & G3 & G4). exists p, d. split; [reflexivity|]. split; [congruence|]. repeat (split; [assumption|]).
      apply (L _ IH); [exact (F _ (In1 _ _ Nd))|exact G4].
    - destruct H as (p & d & -> & _ & Nd & G4). exists p, d. split; [reflexivity|]. split; [congruence|]. repeat (split; [assumption|]).
      apply (L _ IH); [exact (F _ (In1 _ _ Nd))|exact G4].
    - destruct H as (p & d & -> & _ & Nd & G4). exists p, d. split; [reflexivity|]. split; [congruence|]. repeat (split; [assumption|]).
      apply IHs; [exact G4|exact (F _ (In1 _ _ Nd))].
    - destruct H as (p & d & -> & _ & Nd & G3 & G4). exists p, d. split; [reflexivity|]. split; [congruence|]. repeat (split; [assumption|]).
      assert (Fd := F _ (In1 _ _ Nd)). cbn in Fd. apply (Forall_snd (fun r => r <> RPtr a)) in Fd. apply (all2_snd (holds _ _)). apply (L _ (Forall_snd _ _ IH)); [exact Fd|].
      clear - G4. revert G4. generalize (map snd d). induction l as [|q l IH]; intros [|r rs]; cbn; try tauto; try discriminate. intros [A B]. auto. }
  assert (Fc := F _ (nth_error_In _ _ N)). cbn in Fc. clear - W H4 Fc. revert H4 Fc. generalize (o_fields c). induction (o_fields b) as [|x l IH]; intros [|r rs] A Fc; try contradiction; try discriminate; [exact I || reflexivity|].
  destruct A as [A1 A2]. inversion Fc; subst. split; auto.
Qed.

Definition no_refb (a : nat) (r : ref) : bool := match r with RPtr p => negb (Nat.eqb p a) | _ => true end.
Definition no_cellb (a : nat) (c : cell) : bool :=
  match c with CObject o => forallb (no_refb a) (o_fields o) | CSlice l => forallb (no_refb a) l | CList _ _ r => no_refb a r
  | CMap l => forallb (fun p => no_refb a (snd p)) l end.
Lemma no_cellb_sound a m : forallb (no_cellb a) m = true ->
  (forall c, In c m -> match c with CObject o => Forall (fun r => r <> RPtr a) (o_fields o) | CSlice l => Forall (fun r => r <> RPtr a) l
     | CList _ _ r => r <> RPtr a | CMap l => Forall (fun p => snd p <> RPtr a) l end).
Proof.
  rewrite forallb_forall. intros H c I. specialize (H c I).
  assert (W : forall r, no_refb a r = true -> r <> RPtr a) by (intros [| |p] E; try discriminate; cbn in E; intros X; injection X as ->; now rewrite Nat.eqb_refl in E).
  destruct c; cbn in H; try (apply W; exact H); rewrite forallb_forall in H; apply Forall_forall; intros; apply W; auto.
Qed.

Lemma map_arguments : exists v t i m a p m1 b1 b2 c,
  known v t /\ standard v /\ holds_builder (fun q => q <> a) m a (new_builder v t) /\ a <> p /\
  m1 = call_ref v t a (RefSet i (RPtr p)) m /\
  holds_builder (fun q => q <> a) m1 a b1 /\ holds_builder (fun q => q <> a) (store p c m1) a b2 /\
  get_attr v t i (attr_at t i) (Some b1) = (VMap [("k", VScalar (SString "v"))], true) /\
  get_attr v t i (attr_at t i) (Some b2) = (VMap [("k", VScalar (SString "w"))], true).
Proof.
  pose (m1 := call_ref ex_v ex_t 0 (RefSet 4 (RPtr 1)) map_memory).
  pose (m2 := store 1 (CMap [("k", RScalar (SString "w"))]) m1).
  pose (b1 := match read 9 m1 (RPtr 0) with Some (VObject b) => b | _ => new_builder ex_v ex_t end).
  pose (b2 := match read 9 m2 (RPtr 0) with Some (VObject b) => b | _ => new_builder ex_v ex_t end).
  exists ex_v, ex_t, 4, map_memory, 0, 1, m1, b1, b2, (CMap [("k", RScalar (SString "w"))]).
  split; [apply ex_known|]. split; [apply ex_standard|].
  split; [apply (read_builder 9); [vm_compute; reflexivity|apply no_cellb_sound; vm_compute; reflexivity]|]. split; [discriminate|]. split; [reflexivity|].
  split; [apply (read_builder 9); [vm_compute; reflexivity|apply no_cellb_sound; vm_compute; reflexivity]|].
  split; [apply (read_builder 9); [vm_compute; reflexivity|apply no_cellb_sound; vm_compute; reflexivity]|].
  split; vm_compute; reflexivity.
Qed.

Lemma builder_steps t a c1 c2 r (P : nat -> Prop) : ~ P a -> avoids [Call t a c1; Call t a c2; CopyTo t a r; BuildFrom t a] P.
Proof.
  intros Pa s p I M. cbn in I. destruct I as [<-|[<-|[<-|[<-|[]]]]]; cbn in M; try discriminate; injection M as <-; exact Pa.
Qed.

Lemma build_memory_example :
  structural ex_t /\ object_typed ex_v ex_t ex_builder /\
  holds_builder (fun p => p < builder_address ex_builder) (builder_memory ex_builder) (builder_address ex_builder) ex_builder /\
  depth (VObject ex_builder) <= 9 /\ build_object ex_v ex_t ex_builder <> None /\
  exists m', build_at 9 ex_v ex_t (builder_address ex_builder) (builder_memory ex_builder) = Done (m', RPtr (length m' - 1)) /\
    let a := builder_address ex_builder in
    let l := [Call ex_t a (RefSet 6 (RScalar (SString "changed"))); Call ex_t a (RefSet 4 RNil); CopyTo ex_t a (RPtr (length m' - 1)); BuildFrom ex_t a] in
    avoids l (between (builder_memory ex_builder) m') /\ exists m'', perform_all 9 ex_v l m' = Done m''.
Proof.
  split; [left; vm_compute; reflexivity|]. split; [apply object_typedb_sound; vm_compute; reflexivity|]. split; [apply builder_memory_ok|].
  split; [vm_compute; lia|]. split; [vm_compute; discriminate|].
  exists (match build_at 9 ex_v ex_t (builder_address ex_builder) (builder_memory ex_builder) with Done (m, _) => m | _ => [] end).
  split; [vm_compute; reflexivity|]. intros a l. split.
  - apply builder_steps. intros [L _]. exact (Nat.lt_irrefl _ (Nat.lt_le_trans _ _ _ (builder_lt ex_builder) L)).
  - eexists. vm_compute. reflexivity.
Qed.

Lemma copy_memory_example :
  let m := builder_memory ex_builder in
  let m1 := fst (put (VObject ex_object) m) in
  object_typed ex_v ex_t ex_builder /\ object_typed ex_v ex_t ex_object /\
  holds_builder (fun p => p < builder_address ex_builder) m1 (builder_address ex_builder) ex_builder /\
  ~ (length m <= builder_address ex_builder) /\ holds (fun p => length m <= p) m1 (snd (put (VObject ex_object) m)) (VObject ex_object).
Proof.
  intros m m1. split; [apply object_typedb_sound; vm_compute; reflexivity|]. split; [apply ex_object_typed|].
  destruct (put_ok (VObject ex_object) m) as [E H]. fold m1 in E, H.
  assert (B := builder_memory_ok ex_builder). fold m in B. assert (B' := B). destruct B' as (_ & c & N & _).
  assert (La : builder_address ex_builder < length m) by (apply nth_error_Some; congruence).
  split; [|split; [lia|exact H]]. revert B. apply builder_frame; [lia| |].
  - rewrite N. now apply (extends_nth m).
  - intros p d Pp Np. split; [exact Pp|]. now apply (extends_nth m).
Qed.

Lemma slice_memory_example :
  let '(m, r) := put (VList "/api" true (VSlice [VObject ex_child; VNil])) [] in
  holds (fun _ => True) m r (VList "/api" true (VSlice [VObject ex_child; VNil])) /\
  avoids [Assign (length m) (CSlice [RNil; RNil])] (fun p => True /\ p <> length m).
Proof.
  destruct (put_ok (VList "/api" true (VSlice [VObject ex_child; VNil])) []) as [_ H]. destruct (put _ []) as [m r]. split.
  - revert H. apply holds_weaken. auto.
  - intros s p [<-|[]] M [_ N]. injection M as <-. now apply N.
Qed.

Lemma items_are_shared : exists m r p l1 l2 c,
  holds (fun _ => True) m r (VList "" false (VSlice l1)) /\ items_at r m = RPtr p /\
  holds (fun _ => True) (store p c m) r (VList "" false (VSlice l2)) /\ l1 <> l2.
Proof.
  exists [CSlice [RNil; RNil]; CList "" false (RPtr 0)], (RPtr 1), 0, [VNil; VNil], [VNil], (CSlice [RNil]).
  split; [apply (read_ok 9); reflexivity|]. split; [reflexivity|]. split; [apply (read_ok 9); reflexivity|discriminate].
Qed.
