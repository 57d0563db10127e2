(** Proofs about the templates emitted to the buffers of the generators. *)
From Coq Require Import Ascii String Bool Arith ZArith NArith Lia Permutation List.
From Verif Require Import GoStrings GoStringsProofs GoMap GoMapProofs ReporterModel ReaderSpec ReaderProofs7 TextModel TextSpec TextProofs TextProofs2 TextProofs3 TextProofs4
  GoNamesModel BufferModel BufferSpec BufferProofs.
Import ListNotations.
Local Open Scope string_scope.

(** * Removing selectors *)

Lemma remove_skip p a s : remove_all (String.length a) p (a ++ s) = remove_all 0 p s.
Proof. induction a as [|c a IH]; [reflexivity|]. cbn [String.length append]. destruct a; exact IH. Qed.

Lemma without_remove p s : p <> "" -> without p s (remove_all 0 p s).
Proof.
  intros P. remember (String.length s) as n eqn:E. revert s E. induction n as [n IH] using lt_wf_ind. intros s ->.
  destruct s as [|c s]; [constructor|]. cbn [remove_all]. destruct (has_prefix (String c s) p) eqn:H.
  - apply has_prefix_spec in H. destruct H as (r & H). destruct p as [|d p]; [easy|]. cbn [append] in H. injection H as -> ->.
    cbn [String.length]. rewrite Nat.sub_succ, Nat.sub_0_r, remove_skip. change (String d (p ++ r)) with (String d p ++ r)%string.
    apply wo_match. apply (IH (String.length r)); [|reflexivity]. cbn [String.length]. rewrite sapp_length. lia.
  - apply wo_other.
    + intros r E. assert (has_prefix (String c s) p = true) by (apply has_prefix_spec; eauto). congruence.
    + apply (IH (String.length s)); [cbn; lia|reflexivity].
Qed.

Lemma without_unique p s r r' : p <> "" -> without p s r -> without p s r' -> r = r'.
Proof.
  intros P W. revert r'. induction W as [|s r W IH|c s r N W IH]; intros r' W'.
  - inversion W' as [|s' ? ? E|]; subst; [reflexivity|]. destruct p; [easy|discriminate].
  - inversion W' as [E|s' ? ? E|c s' ? N ? E]; subst.
    + destruct p; [easy|discriminate].
    + apply sapp_inv_head in E. subst. auto.
    + exfalso. apply (N s). congruence.
  - inversion W' as [|s' ? ? E|c' s' ? N' ? E]; subst.
    + exfalso. apply (N s'). congruence.
    + f_equal. auto.
Qed.

(** * Arguments *)

Lemma keyed_pairs args pairs : keyed args pairs -> argument_pairs args = pairs /\ length args mod 2 = 0 /\ forall tmpl i, check_keys tmpl i args = [].
Proof.
  induction 1 as [|k v args pairs K (IH1 & IH2 & IH3)]; [repeat split|]. cbn [argument_pairs check_keys length]. split; [now rewrite IH1|]. split; [|intros; apply IH3].
  change (S (S (length args))) with (2 + length args). rewrite <- Nat.add_mod_idemp_l by lia. exact IH2.
Qed.

Lemma pairs_ind {A} (P : list A -> Prop) : P [] -> (forall a, P [a]) -> (forall a b l, P l -> P (a :: b :: l)) -> forall l, P l.
Proof. intros H0 H1 H2. fix F 1. intros [|a [|b l]]; [exact H0|apply H1|apply H2, F]. Qed.

Lemma check_keys_errors tmpl args : forall i, length args mod 2 = 0 -> error_count (check_keys tmpl i args) = 0 -> exists pairs, keyed args pairs.
Proof.
  induction args as [|a|a v args IH] using pairs_ind.
  - intros. exists []. constructor.
  - discriminate.
  - intros i E. change (length (a :: v :: args)) with (2 + length args) in E. rewrite <- Nat.add_mod_idemp_l in E by lia. cbn [check_keys].
    intros H. destruct a.
    + destruct (IH _ E H) as (p & K). exists ((s, v) :: p). now constructor.
    + exfalso. eapply error_count_zero; [exact H|]. left. reflexivity.
    + exfalso. eapply error_count_zero; [exact H|]. left. reflexivity.
Qed.

Lemma map_snoc pairs k v : fold_left (fun m p => mset (fst p) (snd p) m) (pairs ++ [(k, v)])%list [] =
  mset k v (fold_left (fun (m : list (string * argument)) p => mset (fst p) (snd p) m) pairs []).
Proof. now rewrite fold_left_app. Qed.

Lemma map_values pairs k a : mget k (fold_left (fun m p => mset (fst p) (snd p) m) pairs []) = Some a <-> last_value k pairs a.
Proof.
  revert k a. induction pairs as [|[j v] pairs IH] using rev_ind; intros k a.
  - split; [discriminate|]. intros (x & y & E & _). now destruct x.
  - rewrite map_snoc, mget_mset. destruct (String.eqb_spec k j) as [->|N].
    + split.
      * intros H. injection H as <-. exists pairs, []. split; [reflexivity|auto].
      * intros (x & y & E & M). destruct y as [|z y _] using rev_ind.
        -- apply app_inj_tail in E. destruct E as [_ E]. now injection E as <-.
        -- rewrite app_comm_cons, app_assoc in E. apply app_inj_tail in E. destruct E as [_ E]. exfalso. apply M. rewrite map_app. apply in_app_iff. right. rewrite <- E. now left.
    + rewrite IH. split; intros (x & y & E & M).
      * subst pairs. exists x, (y ++ [(j, v)])%list. split; [now rewrite <- app_assoc|]. rewrite map_app, in_app_iff. cbn. intuition congruence.
      * destruct y as [|z y _] using rev_ind; [apply app_inj_tail in E; destruct E as [_ E]; congruence|].
        rewrite app_comm_cons, app_assoc in E. apply app_inj_tail in E. destruct E as [-> _]. exists x, y. split; [reflexivity|].
        rewrite map_app, in_app_iff in M. tauto.
Qed.

Lemma map_keys pairs : NoDup (mkeys (fold_left (fun (m : list (string * argument)) p => mset (fst p) (snd p) m) pairs [])).
Proof. induction pairs as [|[j v] pairs IH] using rev_ind; [constructor|]. rewrite map_snoc. now apply nodup_mset. Qed.

Lemma argument_map_spec args pairs : keyed args pairs ->
  (forall k a, mget k (argument_map args) = Some a <-> last_value k pairs a) /\ NoDup (mkeys (argument_map args)).
Proof.
  intros K. destruct (keyed_pairs _ _ K) as (E & _). unfold argument_map. rewrite E. split; [apply map_values|apply map_keys].
Qed.

(** * Imports *)

Definition add_imports (l : list (string * string)) (b : go_buffer) : go_buffer := fold_left (fun b p => add_import (fst p) (snd p) b) l b.
Definition references (l : list (string * argument)) : list (string * string) :=
  flat_map (fun p => match snd p with ArgReference i s _ => [(i, s)] | _ => [] end) l.
Definition seen (pkg : string) (v : argument) : value :=
  match v with
  | ArgReference i s t => ValString (if String.eqb i pkg then remove_all 0 (s ++ ".") t else t)
  | ArgString s => ValString s
  | ArgOther id => ValOther id
  end.

Lemma add_import_rest i s b : gb_pkg (add_import i s b) = gb_pkg b /\ gb_file (add_import i s b) = gb_file b /\ gb_code (add_import i s b) = gb_code b.
Proof. unfold add_import. destruct (_ && _); auto. Qed.
Lemma add_imports_rest l b : gb_pkg (add_imports l b) = gb_pkg b /\ gb_file (add_imports l b) = gb_file b /\ gb_code (add_imports l b) = gb_code b.
Proof.
  unfold add_imports. revert b. induction l as [|p l IH]; intros b; [auto|]. cbn [fold_left].
  destruct (IH (add_import (fst p) (snd p) b)) as (-> & -> & ->). apply add_import_rest.
Qed.
Lemma add_imports_app l l' b : add_imports (l ++ l')%list b = add_imports l' (add_imports l b).
Proof. apply fold_left_app. Qed.

Lemma replace_values_spec l : forall b, replace_values l b = (map (fun p => (fst p, seen (gb_pkg b) (snd p))) l, add_imports (references l) b).
Proof.
  induction l as [|[k v] l IH]; intros b; [reflexivity|]. cbn [replace_values]. destruct (replace_value v b) as [v' b'] eqn:E.
  rewrite IH. cbn [map fst snd references flat_map]. fold (references l). destruct v; cbn [replace_value] in E; injection E as <- <-; try reflexivity.
  destruct (add_import_rest imprt selector b) as (-> & _ & _). reflexivity.
Qed.

Lemma add_import_keys i s b : NoDup (mkeys (gb_imports b)) -> NoDup (mkeys (gb_imports (add_import i s b))).
Proof. intros N. unfold add_import. destruct (_ && _); [now apply nodup_mset|exact N]. Qed.

Lemma add_imports_spec l : forall b, NoDup (mkeys (gb_imports b)) ->
  NoDup (mkeys (gb_imports (add_imports l b))) /\
  (forall i s, mget i (gb_imports (add_imports l b)) = Some s -> mget i (gb_imports b) = Some s \/ (i <> "" /\ i <> gb_pkg b /\ In (i, s) l)) /\
  (forall i s, i <> "" -> i <> gb_pkg b -> In (i, s) l -> exists s', mget i (gb_imports (add_imports l b)) = Some s') /\
  (forall i s, mget i (gb_imports b) = Some s -> exists s', mget i (gb_imports (add_imports l b)) = Some s').
Proof.
  induction l as [|[i s] l IH]; intros b N.
  - split; [exact N|]. split; [auto|]. split; [intros ? ? ? ? []|eauto].
  - change (add_imports ((i, s) :: l) b) with (add_imports l (add_import i s b)).
    destruct (IH (add_import i s b) (add_import_keys i s b N)) as (A & B & C & D). destruct (add_import_rest i s b) as (P & _ & _). rewrite P in *.
    assert (G : forall j, mget j (gb_imports (add_import i s b)) =
      if negb (String.eqb i "") && negb (String.eqb i (gb_pkg b)) && String.eqb j i then Some s else mget j (gb_imports b)).
    { intros j. unfold add_import. destruct (negb (String.eqb i "") && negb (String.eqb i (gb_pkg b))); [apply mget_mset|reflexivity]. }
    split; [exact A|]. split; [|split].
    + intros j t M. destruct (B j t M) as [Q|(Q1 & Q2 & Q3)]; [|right; cbn; auto]. rewrite G in Q.
      destruct (String.eqb_spec i ""), (String.eqb_spec i (gb_pkg b)), (String.eqb_spec j i); cbn in Q; auto.
      injection Q as <-. subst j. right. cbn. auto.
    + intros j t J1 J2 [E|I]; [|eauto]. injection E as <- <-. apply D with (s := s). rewrite G.
      destruct (String.eqb_spec i ""), (String.eqb_spec i (gb_pkg b)); try easy. cbn. now rewrite String.eqb_refl.
    + intros j t M. specialize (G j). destruct (_ && _); [apply (D j s)|apply (D j t)]; congruence.
Qed.
