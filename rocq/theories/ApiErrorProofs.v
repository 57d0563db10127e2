(** Proofs about the errors of the API. *)
From Coq Require Import Ascii String Bool Arith ZArith NArith Lia Permutation List.
From Verif Require Import GoStrings GoStringsProofs GoMap GoMapProofs ReporterModel GoTimeModel GoTimeSpec GoTimeProofs ObjectsModel ObjectsSpec
  ObjectsProofs JsonModel JsonSpec JsonProofs JsonProofs3 JsonProofs4 JsonProofs5 ApiErrorModel ApiErrorSpec.
Import ListNotations.
Local Open Scope string_scope.

(** * Dates *)

Lemma digit_not_dot c x : digit_value c = Some x -> c <> "."%char.
Proof. intros H ->. discriminate. Qed.

Lemma fraction_read n : forall scale acc rest tail, scale = (10 ^ (Z.of_nat n - 1))%Z -> (0 <= rest < 10 * scale)%Z -> (n = 0%nat -> rest = 0%Z) ->
  (forall c r, tail = String c r -> digit_value c = None) ->
  read_fraction scale acc (fraction_digits n scale rest ++ tail) = ((acc + rest)%Z, tail).
Proof.
  assert (End : forall scale acc tail, (forall c r, tail = String c r -> digit_value c = None) -> read_fraction scale acc tail = (acc, tail)).
  { intros scale acc [|c r] H; [reflexivity|]. cbn. now rewrite (H c r eq_refl). }
  induction n as [|n IH]; intros scale acc rest tail Es R Z0 T; cbn [fraction_digits].
  - rewrite (Z0 eq_refl), Z.add_0_r. cbn. now apply End.
  - destruct (Z.eqb_spec rest 0) as [->|N0]; [rewrite Z.add_0_r; cbn; now apply End|].
    assert (P : (0 < scale)%Z) by (subst scale; apply Z.pow_pos_nonneg; lia).
    cbn [append read_fraction]. rewrite digit_value_digit by (Z.div_mod_to_equations; nia).
    assert (Hm := Z.mod_pos_bound rest scale P). assert (Hd := Z.div_mod rest scale ltac:(lia)).
    destruct n as [|n].
    + cbn [fraction_digits append]. assert (scale = 1)%Z by (subst scale; reflexivity). rewrite End by auto.
      f_equal. subst scale. rewrite Z.div_1_r. lia.
    + assert (E' : (scale / 10 = 10 ^ (Z.of_nat (S n) - 1))%Z).
      { subst scale. replace (Z.of_nat (S (S n)) - 1)%Z with (Z.of_nat (S n) - 1 + 1)%Z by lia. rewrite Z.pow_add_r by lia.
        change (10 ^ 1)%Z with 10%Z. now rewrite Z.div_mul. }
      assert (E2 : (scale = 10 * (scale / 10))%Z).
      { rewrite E'. subst scale. replace (Z.of_nat (S (S n)) - 1)%Z with (1 + (Z.of_nat (S n) - 1))%Z by lia. now rewrite Z.pow_add_r by lia. }
      rewrite IH; auto; [f_equal; lia|lia|lia].
Qed.

Lemma parse_format_nano d : precise_date d -> parse_rfc3339 (format_rfc3339_nano d) = Some d.
Proof.
  destruct d as [y mo da ho mi se na off]. unfold precise_date. cbn [d_year d_month d_day d_hour d_minute d_second d_nano d_offset].
  intros (Hy & Hmo & Hda & Hho & Hmi & Hse & Hna & (m & Ho & Hm)).
  pose proof (days_bound y mo) as Hd.
  unfold format_rfc3339_nano. cbn [d_year d_month d_day d_hour d_minute d_second d_nano d_offset].
  unfold four_digits. rewrite !sapp_assoc. unfold parse_rfc3339.
  assert (0 <= y / 100 <= 99)%Z by (Z.to_euclidean_division_equations; lia).
  assert (0 <= y mod 100 <= 99)%Z by (Z.to_euclidean_division_equations; lia).
  rewrite read_two_digits by lia. rewrite read_two_digits by lia.
  sep "-"%char. rewrite read_two_digits by lia.
  sep "-"%char. rewrite read_two_digits by lia.
  sep "T"%char. rewrite read_two_digits by lia.
  sep ":"%char. rewrite read_two_digits by lia.
  sep ":"%char. rewrite read_two_digits by lia.
  pose proof (offset_part off m Ho Hm) as P. cbv zeta in *.
  set (tail := if Z.eqb off 0 then "Z" else _) in *.
  assert (T : exists c r, tail = String c r /\ c <> "."%char /\ digit_value c = None).
  { unfold tail. destruct (Z.eqb off 0); [exists "Z"%char, ""; split; [reflexivity|split; [discriminate|reflexivity]]|].
    destruct (Z.ltb _ _); cbn [append]; eexists _, _; (split; [reflexivity|split; [discriminate|reflexivity]]). }
  destruct T as (c & r & Et & Ec & Ed).
  assert (N : read_nanos ((if Z.eqb na 0 then "" else "." ++ fraction_digits 9 100000000 na) ++ tail) = (na, tail)).
  { destruct (Z.eqb_spec na 0) as [->|N0]; [cbn [append]; exact (no_nanos _ _ _ Et Ec)|].
    assert (F := fraction_read 9 100000000%Z 0%Z na tail eq_refl ltac:(lia) ltac:(discriminate)). rewrite Z.add_0_l in F.
    assert (D : exists c s, fraction_digits 9 100000000 na = String c s /\ digit_value c <> None).
    { cbn [fraction_digits]. destruct (Z.eqb_spec na 0); [contradiction|]. eexists _, _. split; [reflexivity|].
      rewrite digit_value_digit by (Z.div_mod_to_equations; lia). discriminate. }
    destruct D as (c1 & s1 & E1 & D1). rewrite E1 in *. cbn [append] in *. unfold read_nanos. destruct (digit_value c1) eqn:Dv; [|contradiction].
    apply F. intros c' r' E'. rewrite Et in E'. injection E' as -> ->. exact Ed. }
  rewrite N, P.
  replace (y / 100 * 100 + y mod 100)%Z with y by (pose proof (Z.div_mod y 100); lia).
  assert (C : (Z.leb 1 mo && Z.leb mo 12 && Z.leb 1 da && Z.leb da (days_in y mo) && Z.ltb ho 24 && Z.ltb mi 60 && Z.ltb se 60) = true).
  { rewrite !andb_true_iff. repeat split; (apply Z.leb_le || apply Z.ltb_lt); lia. }
  rewrite C. reflexivity.
Qed.

(** * Reading *)

Lemma has_set b n m : has_bit (set_bit b (2 ^ Z.of_nat n)) (2 ^ Z.of_nat m) = (Nat.eqb n m || has_bit b (2 ^ Z.of_nat m)).
Proof. now rewrite !has_bit_pow, set_bit_pow. Qed.

Ltac bits := repeat match goal with |- context [has_bit (set_bit ?b ?x) ?y] =>
      let n := eval vm_compute in (Z.to_nat (Z.log2 x)) in let m := eval vm_compute in (Z.to_nat (Z.log2 y)) in
      let H := fresh in assert (H := has_set b n m); vm_compute (2 ^ Z.of_nat n)%Z in H; vm_compute (2 ^ Z.of_nat m)%Z in H;
      cbn [Nat.eqb orb] in H; rewrite H; clear H end.

Section Reading.
  Context (o : oracle) (incomplete : json -> any).

  Definition details_of (j : json) : any := match any_of o j with Some a => a | None => incomplete j end.

  Definition error_step (acc : option api_error) (p : string * json) : option api_error :=
    match acc with
    | None => None
    | Some e =>
        let f := fst p in
        let j := snd p in
        if String.eqb f "status" then option_map (fun z => set_status z e) (decode_int j)
        else if String.eqb f "id" then option_map (fun z => set_id z e) (decode_string j)
        else if String.eqb f "href" then option_map (fun z => set_href z e) (decode_string j)
        else if String.eqb f "code" then option_map (fun z => set_code z e) (decode_string j)
        else if String.eqb f "reason" then option_map (fun z => set_reason z e) (decode_string j)
        else if String.eqb f "operation_id" then option_map (fun z => set_operation z e) (decode_string j)
        else if String.eqb f "details" then Some (set_details (details_of j) e)
        else if String.eqb f "timestamp" then
          match decode_string j with
          | Some s => match parse_rfc3339 s with Some d => Some (set_timestamp (Some d) e) | None => None end
          | None => None
          end
        else Some e
    end.

  Lemma int_read j rest : read_int (tokens j ++ rest) = of_option (decode_int j) rest.
  Proof. destruct j; reflexivity. Qed.

  Lemma error_loop l : Forall (fun p => fst p <> "") l -> forall e n rest, length (commas (map member l)) < n ->
    read_error_loop o incomplete n e (commas (map member l) ++ TRBrace :: rest) = of_option (fold_left error_step l (Some e)) rest.
  Proof.
    induction 1 as [|[f x] l H F IH]; intros e n rest L; (destruct n as [|n]; [lia|]); [reflexivity|].
    cbn [fst] in H. cbn [map] in *.
    change (commas (member (f, x) :: map member l)) with (TComma :: TStr f :: TColon :: tokens x ++ commas (map member l))%list in *.
    cbn [app length] in *. rewrite app_length in L. rewrite <- app_assoc. cbn [read_error_loop read_key rbind].
    assert (E : String.eqb f "" = false) by (now apply String.eqb_neq). rewrite E.
    cbn [fold_left]. unfold error_step at 2. cbn [fst snd].
    assert (Z : fold_left error_step l None = None) by (now apply fold_none).
    assert (L' : length (commas (map member l)) < n) by lia.
    destruct (String.eqb f "status"); [rewrite int_read; destruct (decode_int x); cbn [of_option rbind option_map]; [now apply IH|now rewrite Z]|].
    do 5 (match goal with |- context [String.eqb f ?s] =>
      destruct (String.eqb f s); [rewrite string_read; destruct (decode_string x); cbn [of_option rbind option_map]; [now apply IH|now rewrite Z]|] end).
    destruct (String.eqb f "details"); [rewrite json_parsed by lia; cbn [rbind]; now apply IH|].
    destruct (String.eqb f "timestamp").
    - rewrite string_read. destruct (decode_string x) as [s|]; cbn [of_option rbind]; [|now rewrite Z].
      destruct (parse_rfc3339 s); [now apply IH|now rewrite Z].
    - rewrite json_parsed by lia. now apply IH.
  Qed.

  Lemma error_start l rest : Forall (fun p => fst p <> "") l ->
    unmarshal_error o incomplete (tokens (JObj l) ++ rest) = of_option (fold_left error_step l (Some new_error)) rest.
  Proof.
    intros F. unfold unmarshal_error. assert (L : length (tokens (JObj l)) <= fuel (tokens (JObj l) ++ rest)).
    { unfold fuel. rewrite app_length. lia. }
    revert L. generalize (fuel (tokens (JObj l) ++ rest)) as n. intros n L. destruct l as [|p l].
    - cbn in L. destruct n as [|n]; [lia|]. reflexivity.
    - rewrite <- (error_loop (p :: l) F _ n rest).
      + rewrite tokens_members. destruct n as [|n]; [reflexivity|].
        change (commas (map member (p :: l))) with (TComma :: member p ++ commas (map member l))%list. cbn [app read_error_loop].
        rewrite <- !app_assoc. cbn [app]. rewrite key_start. reflexivity.
      + rewrite tokens_members in L. change (commas (map member (p :: l))) with (TComma :: member p ++ commas (map member l))%list.
        cbn [length] in *. rewrite !app_length in *. cbn in *. lia.
  Qed.

  (** Each attribute depends only on its member. *)


  Definition attribute_of {A} (get : option api_error -> A * bool) (name : string) (read : json -> A) (l : list (string * json)) (e : api_error) : A * bool :=
    match mget name l with Some j => (read j, true) | None => get (Some e) end.

  Lemma attribute_found {A} (get : option api_error -> A * bool) name (read : json -> A) :
    (forall e p e', error_step (Some e) p = Some e' -> get (Some e') = if String.eqb (fst p) name then (read (snd p), true) else get (Some e)) ->
    forall l e r, NoDup (map fst l) -> fold_left error_step l (Some e) = Some r -> get (Some r) = attribute_of get name read l e.
  Proof.
    intros H. induction l as [|[k j] l IH]; intros e r N E; [cbn in E; injection E as <-; reflexivity|]. cbn [map fst] in N. inversion N; subst.
    cbn [fold_left] in E. destruct (error_step (Some e) (k, j)) as [e'|] eqn:S; [|rewrite fold_none in E by reflexivity; discriminate].
    rewrite (IH e' r H3 E). assert (G := H _ _ _ S). cbn [fst snd] in G. unfold attribute_of. cbn [mget]. rewrite (String.eqb_sym name k).
    destruct (String.eqb_spec k name) as [->|D].
    - rewrite G. destruct (mget name l) eqn:M; [|reflexivity]. exfalso. apply H2. apply mget_in in M. change name with (fst (name, j0)). now apply in_map.
    - now rewrite G.
  Qed.

  (** The step for one attribute changes that attribute. *)
  Ltac step_tac :=
    let e := fresh "e" in let k := fresh "k" in let j := fresh "j" in let e' := fresh "e'" in
    intros e [k j] e'; cbn [error_step fst snd];
    repeat match goal with |- context [String.eqb k ?s] => destruct (String.eqb_spec k s) as [->|?] end;
    try congruence;
    repeat match goal with
    | |- option_map _ ?x = _ -> _ => destruct x eqn:?; cbn [option_map]
    | |- match ?x with _ => _ end = _ -> _ => destruct x eqn:?
    end; try discriminate; intros H; injection H as <-;
    unfold get_status, get_id, get_href, get_code, get_reason, get_operation, get_details, get_timestamp, getter,
      set_status, set_id, set_href, set_code, set_reason, set_operation, set_details, set_timestamp;
    cbn [e_bits e_status e_id e_href e_code e_reason e_details e_operation e_timestamp]; bits; try reflexivity.

  Definition str_or (j : json) : string := match decode_string j with Some s => s | None => "" end.
  Definition int_or (j : json) : Z := match decode_int j with Some z => z | None => 0%Z end.
  Definition date_or (j : json) : option date := match decode_string j with Some s => parse_rfc3339 s | None => None end.

  Lemma step_status : forall e p e', error_step (Some e) p = Some e' ->
    get_status (Some e') = if String.eqb (fst p) "status" then (int_or (snd p), true) else get_status (Some e).
  Proof. unfold int_or, str_or, date_or. step_tac. Qed.
  Lemma step_id : forall e p e', error_step (Some e) p = Some e' ->
    get_id (Some e') = if String.eqb (fst p) "id" then (str_or (snd p), true) else get_id (Some e).
  Proof. unfold int_or, str_or, date_or. step_tac. Qed.
  Lemma step_href : forall e p e', error_step (Some e) p = Some e' ->
    get_href (Some e') = if String.eqb (fst p) "href" then (str_or (snd p), true) else get_href (Some e).
  Proof. unfold int_or, str_or, date_or. step_tac. Qed.
  Lemma step_code : forall e p e', error_step (Some e) p = Some e' ->
    get_code (Some e') = if String.eqb (fst p) "code" then (str_or (snd p), true) else get_code (Some e).
  Proof. unfold int_or, str_or, date_or. step_tac. Qed.
  Lemma step_reason : forall e p e', error_step (Some e) p = Some e' ->
    get_reason (Some e') = if String.eqb (fst p) "reason" then (str_or (snd p), true) else get_reason (Some e).
  Proof. unfold int_or, str_or, date_or. step_tac. Qed.
  Lemma step_operation : forall e p e', error_step (Some e) p = Some e' ->
    get_operation (Some e') = if String.eqb (fst p) "operation_id" then (str_or (snd p), true) else get_operation (Some e).
  Proof. unfold int_or, str_or, date_or. step_tac. Qed.
  Lemma step_details : forall e p e', error_step (Some e) p = Some e' ->
    get_details (Some e') = if String.eqb (fst p) "details" then (details_of (snd p), true) else get_details (Some e).
  Proof. unfold int_or, str_or, date_or. step_tac. Qed.
  Lemma step_timestamp : forall e p e', error_step (Some e) p = Some e' ->
    get_timestamp (Some e') = if String.eqb (fst p) "timestamp" then (date_or (snd p), true) else get_timestamp (Some e).
  Proof. unfold int_or, str_or, date_or. step_tac. Qed.

  (** What the reader returns for a document. *)
  Lemma error_read l r : NoDup (map fst l) -> fold_left error_step l (Some new_error) = Some r ->
    get_status (Some r) = attribute_of get_status "status" int_or l new_error /\
    get_id (Some r) = attribute_of get_id "id" str_or l new_error /\
    get_href (Some r) = attribute_of get_href "href" str_or l new_error /\
    get_code (Some r) = attribute_of get_code "code" str_or l new_error /\
    get_reason (Some r) = attribute_of get_reason "reason" str_or l new_error /\
    get_operation (Some r) = attribute_of get_operation "operation_id" str_or l new_error /\
    get_details (Some r) = attribute_of get_details "details" details_of l new_error /\
    get_timestamp (Some r) = attribute_of get_timestamp "timestamp" date_or l new_error.
  Proof.
    intros N E. split; [apply (attribute_found _ _ _ step_status); auto|]. split; [apply (attribute_found _ _ _ step_id); auto|].
    split; [apply (attribute_found _ _ _ step_href); auto|]. split; [apply (attribute_found _ _ _ step_code); auto|].
    split; [apply (attribute_found _ _ _ step_reason); auto|]. split; [apply (attribute_found _ _ _ step_operation); auto|].
    split; [apply (attribute_found _ _ _ step_details); auto|apply (attribute_found _ _ _ step_timestamp); auto].
  Qed.

  (** When the reader succeeds. *)
  Definition readable (p : string * json) : Prop :=
    (fst p = "status" -> is_integer (Some (snd p))) /\
    (In (fst p) ["id"; "href"; "code"; "reason"; "operation_id"] -> is_string (Some (snd p))) /\
    (fst p = "timestamp" -> is_date (Some (snd p))).

  Lemma step_succeeds e p : (exists e', error_step (Some e) p = Some e') <-> readable p.
  Proof.
    destruct p as [k j]. unfold readable, is_integer, is_string, is_date. cbn [error_step fst snd In].
    repeat match goal with |- context [String.eqb k ?s] => destruct (String.eqb_spec k s) as [->|?] end.
    1: { split; [|intros (H & _); specialize (H eq_refl)].
         - intros (e' & H). split; [|split; [intuition discriminate|discriminate]]. intros _. destruct j; try discriminate. cbn in H. now destruct (parse_int s).
         - destruct j; try contradiction. cbn. destruct (parse_int s); [cbn; eauto|contradiction]. }
    1-5: split; [intros (e' & H); split; [discriminate|split; [|discriminate]]; intros _; destruct j; try discriminate; exact I|
         intros (_ & H & _); specialize (H ltac:(tauto)); destruct j; try contradiction; cbn; eauto].
    - split; [|eauto]. intros _. split; [discriminate|]. split; [intuition discriminate|discriminate].
    - split; [|intros (_ & _ & H); specialize (H eq_refl)].
      + intros (e' & H). split; [discriminate|]. split; [intuition discriminate|]. intros _. destruct j; try discriminate; cbn in *.
        destruct (parse_rfc3339 s); discriminate.
      + destruct j; try contradiction. cbn. destruct (parse_rfc3339 s); [eauto|contradiction].
    - split; [|eauto]. intros _. split; [intros; contradiction|]. split; [|intros; contradiction]. intuition congruence.
  Qed.

  Lemma error_succeeds l : forall e, (exists r, fold_left error_step l (Some e) = Some r) <-> Forall readable l.
  Proof.
    induction l as [|p l IH]; intros e; cbn [fold_left]; [split; [constructor|eauto]|]. split.
    - intros (r & H). destruct (error_step (Some e) p) as [e'|] eqn:S; [|rewrite fold_none in H by reflexivity; discriminate].
      constructor; [apply (step_succeeds e); eauto|]. apply (IH e'). eauto.
    - intros F. inversion F; subst. apply (step_succeeds e) in H1. destruct H1 as (e' & ->). now apply IH.
  Qed.

  Lemma readable_members l : NoDup (map fst l) -> Forall readable l <->
    is_integer (mget "status" l) /\ is_string (mget "id" l) /\ is_string (mget "href" l) /\ is_string (mget "code" l) /\
    is_string (mget "reason" l) /\ is_string (mget "operation_id" l) /\ is_date (mget "timestamp" l).
  Proof.
    intros N. rewrite Forall_forall. split.
    - intros H. assert (G : forall k j, mget k l = Some j -> readable (k, j)) by (intros k j M; apply H; now apply mget_in).
      assert (K : forall k (P : option json -> Prop), P None -> (forall j, readable (k, j) -> P (Some j)) -> P (mget k l)).
      { intros k P P0 P1. destruct (mget k l) eqn:M; auto. }
      repeat split; apply K; try exact I; intros j (R1 & R2 & R3); cbn in *; tauto.
    - intros (H1 & H2 & H3 & H4 & H5 & H6 & H7) [k j] I. apply mget_in_iff in I; [|exact N]. unfold readable. cbn [fst snd In].
      repeat split; intros E.
      + subst k. now rewrite I in H1.
      + destruct E as [<-|[<-|[<-|[<-|[<-|[]]]]]]; rewrite I in *; assumption.
      + subst k. now rewrite I in H7.
  Qed.

  Lemma document_read l : ~ In "" (map fst l) -> NoDup (map fst l) ->
    ((exists r, unmarshal_error o incomplete (tokens (JObj l)) = Ok r []) <->
     is_integer (mget "status" l) /\ is_string (mget "id" l) /\ is_string (mget "href" l) /\ is_string (mget "code" l) /\
     is_string (mget "reason" l) /\ is_string (mget "operation_id" l) /\ is_date (mget "timestamp" l)) /\
    (forall r rest, unmarshal_error o incomplete (tokens (JObj l)) = Ok r rest -> rest = [] /\
     get_status (Some r) = integer_of (mget "status" l) /\ get_id (Some r) = string_of (mget "id" l) /\
     get_href (Some r) = string_of (mget "href" l) /\ get_code (Some r) = string_of (mget "code" l) /\
     get_reason (Some r) = string_of (mget "reason" l) /\ get_operation (Some r) = string_of (mget "operation_id" l) /\
     get_timestamp (Some r) = date_of (mget "timestamp" l) /\
     match mget "details" l with
     | None => get_details (Some r) = (ANil, false)
     | Some j => snd (get_details (Some r)) = true /\ forall a, any_of o j = Some a -> fst (get_details (Some r)) = a
     end).
  Proof.
    intros Ne N. assert (F : Forall (fun p => fst p <> "") l).
    { apply Forall_forall. intros p H E. apply Ne. rewrite <- E. now apply in_map. }
    assert (S := error_start l [] F). rewrite app_nil_r in S. rewrite S. rewrite <- (readable_members l N), <- (error_succeeds l new_error). split.
    - destruct (fold_left error_step l (Some new_error)) as [r|]; cbn.
      + split; eauto.
      + split; intros (r & H); discriminate.
    - intros r rest E. destruct (fold_left error_step l (Some new_error)) as [r0|] eqn:Fo; [|discriminate]. cbn in E. injection E as <- <-. split; [reflexivity|].
      assert (R := proj1 (readable_members l N) (proj1 (error_succeeds l new_error) (ex_intro _ r0 Fo))).
      destruct R as (R1 & R2 & R3 & R4 & R5 & R6 & R7).
      destruct (error_read l r0 N Fo) as (E1 & E2 & E3 & E4 & E5 & E6 & E7 & E8). unfold attribute_of in *.
      assert (Str : forall k get, get (Some new_error) = ("", false) -> is_string (mget k l) ->
        match mget k l with Some j => (str_or j, true) | None => get (Some new_error) end = string_of (mget k l)).
      { intros k get G R. destruct (mget k l) as [[]|]; try contradiction; auto. }
      rewrite E2, E3, E4, E5, E6. split; [|repeat (split; [apply Str; auto|])].
      + rewrite E1. destruct (mget "status" l) as [[]|]; try contradiction; auto.
      + split.
        * rewrite E8. destruct (mget "timestamp" l) as [[]|]; try contradiction; auto.
        * rewrite E7. destruct (mget "details" l) as [j|]; [|reflexivity]. split; [reflexivity|]. intros a Ha. cbn. unfold details_of. now rewrite Ha.
  Qed.

  Lemma error_fuel l : unmarshal_error o incomplete l <> OutOfFuel.
  Proof.
    assert (G : forall n e l, 2 * length l + 1 <= n -> advances (read_error_loop o incomplete n e l) l).
    { induction n as [|n IH]; intros e l0 L; [lia|]. cbn [read_error_loop]. apply advances_bind; [apply key_advances|]. intros f r H.
      assert (N : forall e r', length r' < length l0 -> advances (read_error_loop o incomplete n e r') l0).
      { intros e' r' H'. eapply advances_less; [apply IH; lia|lia]. }
      destruct (String.eqb f ""); [exact H|].
      destruct (String.eqb f "status"); [pose proof (int_advances r); destruct (read_int r); cbn in *; auto; apply N; lia|].
      do 5 (match goal with |- context [String.eqb f ?s] => destruct (String.eqb f s);
        [pose proof (string_advances r); destruct (read_string r); cbn in *; auto; apply N; lia|] end).
      destruct (String.eqb f "details").
      { pose proof (proj1 (parse_advances n) r ltac:(lia)). destruct (parse_json n r); cbn in *; auto; apply N; lia. }
      destruct (String.eqb f "timestamp").
      { pose proof (string_advances r). destruct (read_string r); cbn in *; auto. destruct (parse_rfc3339 a); [apply N; lia|exact I]. }
      pose proof (proj1 (parse_advances n) r ltac:(lia)). destruct (parse_json n r); cbn in *; auto; apply N; lia. }
    intros E. assert (H := G (fuel l) new_error l ltac:(unfold fuel; lia)). unfold unmarshal_error in E. rewrite E in H. exact H.
  Qed.

  (** The function that overrides the status. *)
  Lemma status_overridden l z :
    (forall r rest, unmarshal_error_status o incomplete l z = Ok r rest ->
      exists e, unmarshal_error o incomplete l = Ok e rest /\ get_status (Some r) = (z, true) /\ same_but_status e r) /\
    (unmarshal_error_status o incomplete l z = Failed <-> unmarshal_error o incomplete l = Failed).
  Proof.
    unfold unmarshal_error_status. destruct (unmarshal_error o incomplete l) as [e rest0| |] eqn:E; cbn [rbind].
    - split; [|split; discriminate]. intros r rest H. injection H as <- <-. exists e. split; [reflexivity|].
      unfold same_but_status, get_status, get_id, get_href, get_code, get_reason, get_operation, get_details, get_timestamp, getter, set_status.
      cbn [e_bits e_status e_id e_href e_code e_reason e_details e_operation e_timestamp]. bits. repeat split.
    - split; [discriminate|tauto].
    - split; [discriminate|split; discriminate].
  Qed.
End Reading.
