(** Proofs about the reader: last steps of the theorems, and witnesses. *)
From Coq Require Import Ascii String Bool Arith ZArith Lia Permutation Sorted List.
From Verif Require Import GoStrings GoStringsProofs GoMap GoMapProofs NamesModel NamesSpec NamesProofs
  ConceptsModel ConceptsSpec ConceptsProofs ReporterModel ReaderModel ChecksModel ReaderSpec ReaderProofs
  ReaderProofs2 ReaderProofs3 ReaderProofs4 ReaderProofs5 ReaderProofs6 ReaderProofs7 ReaderProofs8
  ReaderExamples.
Import ListNotations.
Local Open Scope string_scope.

Lemma error_count_severity rs : error_count rs = List.length (of_severity SError rs).
Proof.
  rewrite error_count_filter. unfold of_severity. apply f_equal. apply filter_ext.
  intros [s m]. now destruct s.
Qed.

Lemma load_grow inputs rs0 : exists x, g_reports (load_inputs inputs rs0) = (rs0 ++ x)%list.
Proof.
  unfold load_inputs.
  assert (G : forall (l : list (list service_dir)) g, exists x,
    g_reports (fold_left (fun g i => load_model i g) l g) = (g_reports g ++ x)%list).
  2:{ destruct (G inputs (MkGState [] [] [] rs0)) as [x Hx]. eauto. }
  assert (V : forall l s g, exists x,
    g_reports (snd (fold_left (fun (sg : service * gstate) vd => load_version (fst sg) vd (snd sg)) l (s, g))) =
    (g_reports g ++ x)%list).
  { induction l as [|d l IH]; intros s g; [exists []; now rewrite app_nil_r|]. cbn [fold_left fst snd].
    destruct (load_version s d g) as [s' g'] eqn:E. destruct (IH s' g') as [x ->].
    unfold load_version in E. cbv zeta in E. injection E as _ <-. cbn [g_reports].
    set (v := match find_version _ s with Some _ => _ | None => _ end).
    destruct (run_grow (flat_map file_evs (snd d)) (MkRState v (g_utypes g) (g_uresources g) (g_reports g))) as [y Hy].
    rewrite <- load_files_run in Hy. unfold load_files in Hy. rewrite Hy. cbn [rs_reports].
    exists (y ++ x)%list. now rewrite app_assoc. }
  assert (S : forall l g, exists x, g_reports (fold_left (fun g d => load_service d g) l g) = (g_reports g ++ x)%list).
  { induction l as [|d l IH]; intros g; [exists []; now rewrite app_nil_r|]. cbn [fold_left].
    destruct (IH (load_service d g)) as [x ->]. unfold load_service. cbv zeta.
    set (s := match find_service _ _ with Some _ => _ | None => _ end).
    destruct (V (snd d) s g) as [y Hy]. destruct (fold_left _ (snd d) (s, g)) as [s' g']. cbn [snd g_reports] in *.
    rewrite Hy. exists (y ++ x)%list. now rewrite app_assoc. }
  induction l as [|i l IH]; intros g; [exists []; now rewrite app_nil_r|]. cbn [fold_left].
  destruct (IH (load_model i g)) as [x ->]. unfold load_model. destruct (S i g) as [y ->].
  exists (y ++ x)%list. now rewrite app_assoc.
Qed.

Lemma read_decision inputs rs0 r rs : read inputs rs0 = Done (r, rs) ->
  ((exists m, r = ROk m) <-> no_errors rs) /\
  (forall msg, r = RError msg <->
     (List.length (of_severity SError rs) = 1 /\ msg = "there was 1 error") \/
     (1 < List.length (of_severity SError rs) /\
      msg = "there were " ++ itoa (List.length (of_severity SError rs)) ++ " errors")) /\
  (exists added, rs = (rs0 ++ added)%list).
Proof.
  intros E. apply read_spec in E. cbv zeta in E. destruct E as (cs & _ & Ers & ->).
  destruct (decide_spec (ensure_model_lists (g_model (load_inputs inputs rs0))) rs) as [D1 D2].
  split; [|split].
  - split.
    + intros [m Hm]. now apply D1 in Hm as [Hm _].
    + intros H. eexists. apply D1. auto.
  - intros msg. rewrite D2, error_count_severity. reflexivity.
  - destruct (load_grow inputs rs0) as [x Hx]. rewrite Ers, Hx. eexists. rewrite <- app_assoc. reflexivity.
Qed.

Lemma returned_lists inputs rs0 m rs s v :
  read inputs rs0 = Done (ROk m, rs) -> in_model m s -> in_service s v ->
  forall k t, type_at k v = Some t -> is_list t = false ->
  exists lt, find_type (cat [t_name t; nList]) v = Some lt /\
    (is_list lt = true -> t_element lt = Some (name_key (t_name t))).
Proof.
  intros E Hs Hv k t Ht Hl. destruct (returned_model_sound _ _ _ _ _ _ E Hs Hv) as (_ & _ & _ & _ & _ & HL & HE).
  destruct (HL k t Ht Hl) as (lt & Hlt). exists lt. split; [assumption|]. intros Hll.
  destruct (HE _ lt Hlt Hll) as (n & En & ->). f_equal. now apply list_name_inj in En.
Qed.

Lemma param_directions d st :
  let p := fst (exit_param d st) in
  (p_in p = true <-> In DIn (pd_directions d)) /\
  (p_out p = true <-> In DOut (pd_directions d) \/ pd_directions d = []).
Proof. rewrite exit_param_run. cbn [fst]. exact (directions_spec (pd_directions d)). Qed.

Lemma concat_cons x l : String.concat "" (x :: l) = x ++ String.concat "" l.
Proof. destruct l; simpl; [|reflexivity]. now rewrite sapp_nil_r. Qed.

Lemma reporter_spec r rs :
  let q := apply_reports r rs in
  rr_errors q = rr_errors r + List.length (of_severity SError rs) /\
  rr_err q = rr_err r ++ String.concat "" (map (fun p => error_prefix ++ rp_message p ++ newline) (of_severity SError rs)) /\
  rr_out q = rr_out r ++
    String.concat "" (flat_map (fun p => match rp_severity p with
                                     | SInfo => [info_prefix ++ rp_message p ++ newline]
                                     | SWarn => [warn_prefix ++ rp_message p ++ newline]
                                     | SError => []
                                     end) rs).
Proof.
  cbv zeta. revert r. induction rs as [|[s m] rs IH]; intros r.
  - simpl. now rewrite !sapp_nil_r, Nat.add_0_r.
  - unfold apply_reports in *. cbn [fold_left]. destruct (IH (apply_report r (MkReport s m))) as (-> & -> & ->).
    unfold of_severity. destruct s; cbn [apply_report rp_severity rr_errors rr_err rr_out filter severity_eqb List.length map flat_map app rp_message];
      rewrite ?concat_cons, ?sapp_assoc, ?Nat.add_succ_r; auto.
Qed.

(** * Witnesses *)

Lemma derived_names_order : exists ds ds',
  (forall id, In id (type_uses ds) <-> In id (type_uses ds')) /\ declared_types ds = declared_types ds' /\
  fails "there was 1 error" (read [[("s", [("v1", [("f", ds)])])]] []) = true /\
  succeeds (read [[("s", [("v1", [("f", ds')])])]] []) = true.
Proof.
  exists ex_plain_before, ex_plain_after. split; [|vm_compute; repeat split].
  intros id. vm_compute. tauto.
Qed.

Lemma masked_undefined : exists v1 v2,
  fails "there was 1 error" (read [[("s", [("v1", v1)])]] []) = true /\
  succeeds (read [[("s", [("v2", v2)])]] []) = true /\
  succeeds (read [[("s", [("v1", v1); ("v2", v2)])]] []) = true.
Proof. exists [("f", ex_uses)], [("f", ex_uses_and_declares)]. vm_compute. repeat split. Qed.

Lemma masked_repeated : exists v1 v2,
  fails "there was 1 error" (read [[("s", [("v1", v1)])]] []) = true /\
  fails "there was 1 error" (read [[("s", [("v2", v2)])]] []) = true /\
  succeeds (read [[("s", [("v1", v1); ("v2", v2)])]] []) = true.
Proof. exists [("f", ex_uses)], [("f", ex_twice)]. vm_compute. repeat split. Qed.

Lemma hijacked_list : exists ds,
  succeeds (read [[("s", [("v1", [("f", ds)])])]] []) = true /\
  exists t, find_type (cat [nm "Foo"; nList]) (ensure_lists (rs_version (load_files [("f", ds)] (fresh (nm "v1"))))) = Some t /\
    t_kind t = StructType.
Proof.
  exists ex_hijack. split; [vm_compute; reflexivity|].
  eexists. split; [vm_compute; reflexivity|reflexivity].
Qed.

Lemma returned_undefined : exists inputs m rs s v t,
  read inputs [] = Done (ROk m, rs) /\ in_model m s /\ in_service s v /\
  find_type (nm "Bar") v = Some t /\ t_kind t = UndefinedType.
Proof.
  exists [[("s", [("v1", [("f", ex_uses)]); ("v2", [("f", ex_uses_and_declares)])])]].
  eexists _, _, _, _, _. split; [vm_compute; reflexivity|].
  split; [exists "s"; reflexivity|]. split; [exists "v1"; reflexivity|].
  split; [vm_compute; reflexivity|]. reflexivity.
Qed.

Lemma example_returned : exists m rs s v, read [[("svc", [("v1", ex_files)])]] [] = Done (ROk m, rs) /\
  in_model m s /\ in_service s v /\ List.length (v_types v) = 22 /\ List.length (v_resources v) = 3.
Proof.
  eexists _, _, _, _. split; [vm_compute; reflexivity|].
  split; [exists "svc"; reflexivity|]. split; [exists "v1"; reflexivity|].
  split; vm_compute; reflexivity.
Qed.
