(** Proofs about the errors of the API: writing, messages and sending. *)
From Coq Require Import Ascii String Bool Arith ZArith NArith Lia Permutation List.
From Verif Require Import GoStrings GoStringsProofs GoMap GoMapProofs ReporterModel GoTimeModel GoTimeSpec GoTimeProofs ObjectsModel ObjectsSpec
  ObjectsProofs JsonModel JsonSpec JsonProofs JsonProofs3 JsonProofs4 JsonProofs5 HelpersSpec HelpersProofs2 ApiErrorModel ApiErrorSpec ApiErrorProofs.
Import ListNotations.
Local Open Scope string_scope.

(** * Writing *)

Definition optional_member (b : bool) (k : string) (j : json) : list (string * json) := if b then [(k, j)] else [].

Definition encode_timestamp (d : option date) : json := match d with None => JNull | Some d => JStr (format_rfc3339_nano d) end.

Definition error_members (o : oracle) (e : api_error) : list (string * json) :=
  (("kind", JStr "Error") ::
   optional_member (has_bit (e_bits e) 1) "status" (JNum (itoa_z (e_status e))) ++
   optional_member (has_bit (e_bits e) 2) "id" (JStr (e_id e)) ++
   optional_member (has_bit (e_bits e) 4) "href" (JStr (e_href e)) ++
   optional_member (has_bit (e_bits e) 8) "code" (JStr (e_code e)) ++
   optional_member (has_bit (e_bits e) 16) "reason" (JStr (e_reason e)) ++
   optional_member (has_bit (e_bits e) 32) "operation_id" (JStr (e_operation e)) ++
   optional_member (has_bit (e_bits e) 64) "details" (encode_any o (e_details e)) ++
   optional_member (has_bit (e_bits e) 128) "timestamp" (encode_timestamp (e_timestamp e)))%list.

Lemma timestamp_written d : writes (write_timestamp d) (encode_timestamp d).
Proof.
  intros l. unfold write_timestamp, encode_timestamp. destruct d as [d|]; [|intros H; now injection H as <-].
  destruct (Z.ltb (d_year d) 0 || Z.leb 10000 (d_year d)); [discriminate|]. generalize (format_rfc3339_nano d). intros s H. now injection H as <-.
Qed.

Lemma member_written b k w j r l : writes w j -> wcat (write_member b k w) r = WOk l ->
  exists l', r = WOk l' /\ l = (commas (map member (optional_member b k j)) ++ l')%list.
Proof.
  intros W H. apply wcat_ok in H. destruct H as (l1 & l2 & E1 & -> & ->). exists l2. split; [reflexivity|]. f_equal.
  unfold write_member in E1. destruct b; cbn [optional_member map commas flat_map]; [|now injection E1 as <-].
  apply wcat_ok in E1. destruct E1 as (l3 & l4 & E3 & E4 & ->). apply wcat_ok in E4. destruct E4 as (l5 & l6 & E5 & E6 & ->).
  injection E3 as <-. injection E5 as <-. rewrite (W _ E6). unfold member. cbn. now rewrite app_nil_r.
Qed.

Lemma ok_writes l j : l = tokens j -> writes (WOk l) j.
Proof. intros -> l' H. now injection H as <-. Qed.

Lemma error_written o e l : write_error o (Some e) = WOk l -> l = tokens (JObj (error_members o e)).
Proof.
  unfold write_error. intros H. apply wcat_ok in H. destruct H as (l1 & l2 & E1 & H & ->). injection E1 as <-.
  apply (member_written _ _ _ (JNum (itoa_z (e_status e)))) in H; [|now apply ok_writes]. destruct H as (l3 & H & ->).
  apply (member_written _ _ _ (JStr (e_id e))) in H; [|now apply ok_writes]. destruct H as (l4 & H & ->).
  apply (member_written _ _ _ (JStr (e_href e))) in H; [|now apply ok_writes]. destruct H as (l5 & H & ->).
  apply (member_written _ _ _ (JStr (e_code e))) in H; [|now apply ok_writes]. destruct H as (l6 & H & ->).
  apply (member_written _ _ _ (JStr (e_reason e))) in H; [|now apply ok_writes]. destruct H as (l7 & H & ->).
  apply (member_written _ _ _ (JStr (e_operation e))) in H; [|now apply ok_writes]. destruct H as (l8 & H & ->).
  apply (member_written _ _ _ (encode_any o (e_details e))) in H; [|apply any_written]. destruct H as (l9 & H & ->).
  apply (member_written _ _ _ (encode_timestamp (e_timestamp e))) in H; [|apply timestamp_written]. destruct H as (l10 & H & ->).
  injection H as <-. unfold error_members. rewrite tokens_members. rewrite !map_app, !commas_app, <- !app_assoc. reflexivity.
Qed.

Lemma timestamp_succeeds d : succeeds (write_timestamp d) <-> match d with None => True | Some d => (0 <= d_year d <= 9999)%Z end.
Proof.
  unfold write_timestamp. destruct d as [d|]; [|rewrite ok_succeeds; tauto].
  destruct (Z.ltb (d_year d) 0 || Z.leb 10000 (d_year d)) eqn:E.
  - split; [intros [l H]; discriminate|]. intros H. apply orb_true_iff in E. rewrite Z.ltb_lt, Z.leb_le in E. lia.
  - rewrite ok_succeeds. apply orb_false_iff in E. rewrite Z.ltb_ge, Z.leb_gt in E. split; [lia|auto].
Qed.

Lemma member_succeeds b k w : succeeds (write_member b k w) <-> (b = true -> succeeds w).
Proof.
  unfold write_member. destruct b; [|rewrite ok_succeeds; split; [discriminate|auto]]. rewrite !wcat_succeeds, !ok_succeeds. tauto.
Qed.

Lemma error_write_succeeds o e : faithful o -> error_typed e -> (exists l, write_error o (Some e) = WOk l) <-> error_printable o e.
Proof.
  intros [_ Pe] [_ T]. change (succeeds (write_error o (Some e)) <-> error_printable o e). unfold write_error.
  rewrite !wcat_succeeds, !member_succeeds, !ok_succeeds, timestamp_succeeds.
  unfold error_printable, get_details, get_timestamp, getter in *. destruct (has_bit (e_bits e) 64), (has_bit (e_bits e) 128); cbn [fst] in *;
    try rewrite (any_succeeds o _ Pe T); destruct (e_timestamp e) as [d|]; cbn [finite_any]; intuition (try congruence); try (now apply H0).
  all: try match goal with H : (Some _, true) = (Some _, true) |- _ => injection H as <-; assumption end.
  all: now apply H1.
Qed.

(** * The document *)

Section Members.
  Context (o : oracle) (e : api_error).
  Let m := error_members o e.

  Lemma members_names : NoDup (map fst m) /\
    incl (map fst m) ["kind"; "status"; "id"; "href"; "code"; "reason"; "operation_id"; "details"; "timestamp"].
  Proof.
    assert (G : forall b1 b2 b3 b4 b5 b6 b7 b8 : bool,
      let f (b : bool) (k : string) := if b then [k] else [] in
      let l := ("kind" :: f b1 "status" ++ f b2 "id" ++ f b3 "href" ++ f b4 "code" ++ f b5 "reason" ++ f b6 "operation_id" ++ f b7 "details" ++
        f b8 "timestamp")%list in
      NoDup l /\ incl l ["kind"; "status"; "id"; "href"; "code"; "reason"; "operation_id"; "details"; "timestamp"]).
    { assert (N : NoDup ["kind"; "status"; "id"; "href"; "code"; "reason"; "operation_id"; "details"; "timestamp"])
        by (repeat constructor; cbn; intuition discriminate).
      assert (S : forall (l r : list string) k (b : bool), NoDup (l ++ k :: r) -> NoDup (l ++ (if b then [k] else []) ++ r)).
      { intros l r k [] H; [exact H|]. exact (NoDup_remove_1 _ _ _ H). }
      intros b1 b2 b3 b4 b5 b6 b7 b8. cbv zeta. split.
      - change ("kind" :: ?x)%list with (["kind"] ++ x)%list.
        pose proof (S ["kind"; "status"; "id"; "href"; "code"; "reason"; "operation_id"; "details"] [] "timestamp" b8 N) as H8.
        pose proof (S ["kind"; "status"; "id"; "href"; "code"; "reason"; "operation_id"] _ "details" b7 H8) as H7.
        pose proof (S ["kind"; "status"; "id"; "href"; "code"; "reason"] _ "operation_id" b6 H7) as H6.
        pose proof (S ["kind"; "status"; "id"; "href"; "code"] _ "reason" b5 H6) as H5.
        pose proof (S ["kind"; "status"; "id"; "href"] _ "code" b4 H5) as H4.
        pose proof (S ["kind"; "status"; "id"] _ "href" b3 H4) as H3.
        pose proof (S ["kind"; "status"] _ "id" b2 H3) as H2.
        pose proof (S ["kind"] _ "status" b1 H2) as H1. rewrite app_nil_r in H1. exact H1.
      - intros x [<-|H]; [left; reflexivity|].
        repeat (apply in_app_or in H; destruct H as [H|H]).
        all: match type of H with In _ (if ?b then _ else _) => destruct b; [destruct H as [<-|[]]; cbn; tauto|destruct H] end. }
    assert (M : map fst m = ("kind" :: (if has_bit (e_bits e) 1 then ["status"] else []) ++ (if has_bit (e_bits e) 2 then ["id"] else []) ++
      (if has_bit (e_bits e) 4 then ["href"] else []) ++ (if has_bit (e_bits e) 8 then ["code"] else []) ++
      (if has_bit (e_bits e) 16 then ["reason"] else []) ++ (if has_bit (e_bits e) 32 then ["operation_id"] else []) ++
      (if has_bit (e_bits e) 64 then ["details"] else []) ++ (if has_bit (e_bits e) 128 then ["timestamp"] else []))%list).
    { unfold m, error_members, optional_member. cbn [map fst]. rewrite !map_app.
      do 8 (f_equal; try match goal with |- map fst (if ?b then _ else _) = _ => now destruct b end). }
    rewrite M. apply G.
  Qed.

  Lemma mget_app (l r : list (string * json)) k : mget k (l ++ r)%list = match mget k l with Some j => Some j | None => mget k r end.
  Proof. induction l as [|[k' j] l IH]; [reflexivity|]. cbn. destruct (String.eqb k k'); auto. Qed.

  Lemma mget_optional b k k' j : mget k (optional_member b k' j) = if String.eqb k k' then (if b then Some j else None) else None.
  Proof. destruct b; cbn; [reflexivity|]. now destruct (String.eqb k k'). Qed.

  Ltac find := unfold m, error_members; cbn [mget]; rewrite ?mget_app, ?mget_optional; cbn [String.eqb Ascii.eqb Bool.eqb];
    repeat match goal with |- context [has_bit ?x ?y] => destruct (has_bit x y) end; reflexivity.

  Lemma get_kind : mget "kind" m = Some (JStr "Error").
  Proof. reflexivity. Qed.
  Lemma find_status : mget "status" m = optional (fun z => JNum (itoa_z z)) (get_status (Some e)).
  Proof. unfold optional, get_status, getter. find. Qed.
  Lemma find_id : mget "id" m = optional JStr (get_id (Some e)).
  Proof. unfold optional, get_id, getter. find. Qed.
  Lemma find_href : mget "href" m = optional JStr (get_href (Some e)).
  Proof. unfold optional, get_href, getter. find. Qed.
  Lemma find_code : mget "code" m = optional JStr (get_code (Some e)).
  Proof. unfold optional, get_code, getter. find. Qed.
  Lemma find_reason : mget "reason" m = optional JStr (get_reason (Some e)).
  Proof. unfold optional, get_reason, getter. find. Qed.
  Lemma find_operation : mget "operation_id" m = optional JStr (get_operation (Some e)).
  Proof. unfold optional, get_operation, getter. find. Qed.
  Lemma find_details : mget "details" m = optional (encode_any o) (get_details (Some e)).
  Proof. unfold optional, get_details, getter. find. Qed.
  Lemma find_timestamp : mget "timestamp" m = optional encode_timestamp (get_timestamp (Some e)).
  Proof. unfold optional, get_timestamp, getter. find. Qed.

  Lemma members_describe : faithful o -> error_typed e -> error_printable o e -> describes o e m.
  Proof.
    intros [Fa Pe] [T1 T2] [P1 P2]. destruct members_names as [N1 N2]. split; [exact N1|]. split; [exact N2|]. split; [exact get_kind|].
    split; [exact find_status|]. split; [exact find_id|]. split; [exact find_href|]. split; [exact find_code|]. split; [exact find_reason|].
    split; [exact find_operation|]. split.
    - rewrite find_details. destruct (get_details (Some e)) as [a []]; [|reflexivity]. cbn in *. exists (encode_any o a). split; [reflexivity|]. now apply any_shown.
    - rewrite find_timestamp. destruct (get_timestamp (Some e)) as [[d|] []]; try reflexivity. cbn [optional fst snd encode_timestamp].
      exists (format_rfc3339_nano d). split; [reflexivity|apply parse_format_nano].
  Qed.

  Lemma members_wf : faithful o -> well_formed (JObj m).
  Proof.
    intros Fa. unfold m, error_members, optional_member. cbn [well_formed]. split; [exact I|].
    rewrite !all1_app. repeat match goal with |- _ /\ _ => split end;
      match goal with |- all1 _ (if ?b then _ else _) => destruct b; [split; [|exact I]|exact I] end; try exact I; cbn [snd].
    - apply integer_number.
    - now apply any_wf.
    - destruct (e_timestamp e); exact I.
  Qed.
End Members.

Lemma error_document o e l : faithful o -> error_typed e -> write_error o (Some e) = WOk l ->
  exists m, l = tokens (JObj m) /\ well_formed (JObj m) /\ describes o e m.
Proof.
  intros Fa T W. exists (error_members o e). split; [now apply error_written|]. split; [now apply members_wf|].
  apply members_describe; auto. apply error_write_succeeds; eauto.
Qed.

(** * Round trip *)

Lemma error_back o inc e l : faithful o -> error_typed e -> error_lossless e -> write_error o (Some e) = WOk l ->
  exists r, unmarshal_error o inc l = Ok r [] /\ same_error e r.
Proof.
  intros Fa T L W. assert (Pr : error_printable o e) by (apply error_write_succeeds; eauto).
  rewrite (error_written o e l W). destruct (members_names o e) as [N1 N2].
  assert (Ne : ~ In "" (map fst (error_members o e))). { intros H. apply N2 in H. cbn in H. intuition discriminate. }
  destruct (document_read o inc (error_members o e) Ne N1) as [D1 D2].
  rewrite find_status, find_id, find_href, find_code, find_reason, find_operation, find_details, find_timestamp in *.
  assert (Ts : forall t, get_timestamp (Some e) = (t, true) -> exists d, t = Some d /\ parse_rfc3339 (format_rfc3339_nano d) = Some d).
  { intros t Et. destruct (L t Et) as (d & -> & Pd). exists d. split; [reflexivity|]. now apply parse_format_nano. }
  destruct (proj2 D1) as (r & Er).
  { assert (S : forall x : string * bool, is_string (optional JStr x)) by (intros [s []]; exact I).
    split; [|repeat (split; [apply S|])].
    - destruct T as [T _]. destruct (get_status (Some e)) as [z []]; [|exact I]. cbn [optional fst snd is_integer] in *. rewrite parse_itoa by auto. discriminate.
    - destruct (get_timestamp (Some e)) as [t []]; [|exact I]. destruct (Ts t eq_refl) as (d & -> & E). cbn [optional fst snd is_date encode_timestamp].
      rewrite E. discriminate. }
  exists r. split; [exact Er|]. destruct (D2 r [] Er) as (_ & E1 & E2 & E3 & E4 & E5 & E6 & E7 & E8).
  assert (S : forall x : string * bool, (snd x = false -> fst x = "") -> string_of (optional JStr x) = x).
  { intros [s []] H; [reflexivity|]. cbn in *. now rewrite H. }
  assert (G : forall A mask (field : api_error -> A) zero, snd (getter mask field zero (Some e)) = false -> fst (getter mask field zero (Some e)) = zero).
  { intros A mask field zero. unfold getter. destruct (has_bit (e_bits e) mask); [discriminate|reflexivity]. }
  split; [|split; [|split; [|split; [|split; [|split; [|split]]]]]].
  - rewrite E1. assert (Gs := G Z 1%Z e_status 0%Z). fold get_status in Gs. destruct T as [T _].
    destruct (get_status (Some e)) as [z []]; cbn [optional fst snd integer_of] in *; [now rewrite parse_itoa|]. now rewrite Gs.
  - rewrite E2. apply S, G.
  - rewrite E3. apply S, G.
  - rewrite E4. apply S, G.
  - rewrite E5. apply S, G.
  - rewrite E6. apply S, G.
  - assert (Gs := G any 64%Z e_details ANil). fold get_details in Gs. destruct T as [_ T]. destruct Pr as [Pr _].
    destruct (get_details (Some e)) as [a []]; cbn [optional fst snd] in *.
    + destruct E8 as [E8 E9]. specialize (E9 a (any_back o a Fa T Pr)). rewrite <- E8, <- E9. now destruct (get_details (Some r)).
    + rewrite E8. now rewrite Gs.
  - rewrite E7. assert (Gs := G _ 128%Z e_timestamp None). fold get_timestamp in Gs.
    destruct (get_timestamp (Some e)) as [t []]; cbn [optional fst snd] in *.
    + destruct (Ts t eq_refl) as (d & -> & E). cbn [encode_timestamp date_of]. now rewrite E.
    + now rewrite Gs.
Qed.

(** * Messages *)

Lemma join_enumeration l x y : (str_join ", " (l ++ [x]) ++ " and " ++ y)%string = enumeration (l ++ [x; y]).
Proof.
  induction l as [|a l IH]; [reflexivity|]. cbn [app]. rewrite str_join_cons by (now destruct l). rewrite !sapp_assoc, IH.
  destruct l as [|b l]; [reflexivity|]. destruct l; reflexivity.
Qed.

Lemma chunks_enumeration l :
  (if Nat.eqb (length l) 1 then nth 0 l ""
   else if Nat.ltb 1 (length l) then str_join ", " (firstn (length l - 1) l) ++ " and " ++ nth (length l - 1) l "" else "") = enumeration l.
Proof.
  destruct (rev l) as [|y [|x r]] eqn:R.
  - apply (f_equal (@rev _)) in R. rewrite rev_involutive in R. now subst l.
  - apply (f_equal (@rev _)) in R. rewrite rev_involutive in R. now subst l.
  - apply (f_equal (@rev _)) in R. rewrite rev_involutive in R. cbn [rev] in R. rewrite <- app_assoc in R. cbn [app] in R. subst l.
    rewrite <- join_enumeration. rewrite !app_length. cbn [length].
    destruct (Nat.eqb_spec (length (rev r) + 2) 1); [lia|]. destruct (Nat.ltb_spec 1 (length (rev r) + 2)); [|lia].
    replace (length (rev r) + 2 - 1) with (length (rev r) + 1) by lia.
    assert (F : firstn (length (rev r) + 1) (rev r ++ [x; y]) = (rev r ++ [x])%list).
    { change [x; y] with ([x] ++ [y])%list. rewrite app_assoc. replace (length (rev r) + 1) with (length (rev r ++ [x])) by (rewrite app_length; reflexivity).
      rewrite firstn_app, Nat.sub_diag, firstn_all. cbn. now rewrite app_nil_r. }
    rewrite F. rewrite app_nth2 by lia. replace (length (rev r) + 1 - length (rev r)) with 1 by lia. reflexivity.
Qed.

Lemma chunks_mentions e : (forall t, get_timestamp (Some e) = (t, true) -> t <> None) -> error_chunks e = Some (mentions e).
Proof.
  unfold error_chunks, mentions, mention, get_status, get_id, get_code, get_timestamp, get_operation, getter. intros H.
  destruct (has_bit (e_bits e) 128); [destruct (e_timestamp e) as [d|]; [|now contradiction (H None eq_refl)]|];
    destruct (has_bit (e_bits e) 1), (has_bit (e_bits e) 2), (has_bit (e_bits e) 8), (has_bit (e_bits e) 32); reflexivity.
Qed.

Lemma mentions_not_empty e : ~ In "" (mentions e).
Proof.
  unfold mentions. rewrite !in_app_iff. unfold mention.
  intros [H|[H|[H|[H|H]]]]; match type of H with In _ (if ?b then _ else _) => destruct b; [destruct H as [H|[]]; discriminate H|destruct H] end.
Qed.

Lemma enumeration_empty l : ~ In "" l -> enumeration l = "" -> l = [].
Proof.
  destruct l as [|a [|b [|c l]]]; intros N E; auto; cbn in *; destruct a; try discriminate; exfalso; tauto.
Qed.

Lemma message_spec e : (forall t, get_timestamp (Some e) = (t, true) -> t <> None) ->
  error_message e = Some
    (match mentions e, get_reason (Some e) with
     | [], (s, true) => if String.eqb s "" then "unknown error" else s
     | [], (_, false) => "unknown error"
     | l, (s, true) => enumeration l ++ ": " ++ s
     | l, (_, false) => enumeration l
     end).
Proof.
  intros H. unfold error_message. rewrite (chunks_mentions e H). cbv zeta. rewrite chunks_enumeration.
  assert (M := mentions_not_empty e). assert (Q := enumeration_empty (mentions e) M). unfold get_reason, getter. f_equal.
  destruct (mentions e) as [|a l].
  - cbn [enumeration String.eqb negb append]. now destruct (has_bit (e_bits e) 16).
  - destruct (enumeration (a :: l)) as [|c r] eqn:En; [specialize (Q eq_refl); discriminate|]. cbn [String.eqb negb].
    destruct (has_bit (e_bits e) 16); [|reflexivity]. rewrite sapp_assoc. reflexivity.
Qed.

Lemma message_not_empty e s : error_message e = Some s -> s <> "".
Proof.
  unfold error_message. destruct (error_chunks e); [|discriminate]. cbv zeta.
  match goal with |- Some (if String.eqb ?x "" then _ else _) = _ -> _ => generalize x end. intros x H. injection H as <-.
  destruct (String.eqb_spec x ""); [discriminate|auto].
Qed.

Lemma message_panics e : error_message e = None <-> get_timestamp (Some e) = (None, true).
Proof.
  split.
  - unfold error_message, error_chunks, get_timestamp, getter. destruct (has_bit (e_bits e) 128); [|discriminate].
    destruct (e_timestamp e); [discriminate|reflexivity].
  - unfold error_message, error_chunks, get_timestamp, getter. destruct (has_bit (e_bits e) 128); [|discriminate]. intros H. injection H as ->. reflexivity.
Qed.

(** * Sending *)

Lemma error_id_get e : error_id e = fst (get_id e).
Proof. unfold error_id, plain_getter, get_id, getter. destruct e as [e|]; auto. now destruct (has_bit (e_bits e) 2). Qed.

Lemma sent_status o e z : signed_decimal (fst (get_id (Some e))) z -> (100 <= z <= 999)%Z ->
  send_error o (Some e) = Sent z "application/json" (write_error o (Some e)).
Proof.
  intros S R. assert (P : parse_int (fst (get_id (Some e))) = Some z).
  { apply integers_parsed. split; [exact S|]. unfold int64_min, int64_max. lia. }
  unfold send_error. rewrite error_id_get, P. unfold valid_status.
  assert (V : (Z.leb 100 z && Z.leb z 999) = true) by (apply andb_true_iff; rewrite !Z.leb_le; lia). now rewrite V.
Qed.

Lemma sent_panic o e : (forall z, signed_decimal (fst (get_id e)) z -> ~ (int64_min <= z <= int64_max)%Z) ->
  send_error o e = Sent 200 "application/json" (write_error o (Some panic_error)).
Proof.
  intros H. unfold send_error. rewrite error_id_get. destruct (parse_int (fst (get_id e))) as [z|] eqn:P; [|reflexivity].
  apply integers_parsed in P. destruct P as [S R]. now contradiction (H z S).
Qed.

Lemma sent_invalid o e z : signed_decimal (fst (get_id e)) z -> (int64_min <= z <= int64_max)%Z -> ~ (100 <= z <= 999)%Z -> send_error o e = SendPanics.
Proof.
  intros S R N. assert (P : parse_int (fst (get_id e)) = Some z) by (apply integers_parsed; auto).
  unfold send_error. rewrite error_id_get, P. unfold valid_status.
  destruct (Z.leb_spec 100 z), (Z.leb_spec z 999); auto. lia.
Qed.

Lemma replied o id reason z : parse_int id = Some z -> (100 <= z <= 999)%Z ->
  is_reply o (send_error o (Some (build_error (set_reason reason (set_id id new_error))))) z id reason.
Proof.
  intros P R. unfold send_error. change (error_id (Some (build_error (set_reason reason (set_id id new_error))))) with id. rewrite P. unfold valid_status.
  assert (V : (Z.leb 100 z && Z.leb z 999) = true) by (apply andb_true_iff; rewrite !Z.leb_le; lia). rewrite V.
  exists [TLBrace; TStr "kind"; TColon; TStr "Error"; TComma; TStr "id"; TColon; TStr id; TComma; TStr "reason"; TColon; TStr reason; TRBrace].
  split; [reflexivity|]. intros inc. exists (set_reason reason (set_id id new_error)). repeat split.
Qed.

Lemma not_found o path : is_reply o (send_not_found o path) 404 "404" ("Can't find resource for path '" ++ path ++ "'").
Proof. apply replied; [reflexivity|lia]. Qed.
Lemma not_allowed o method path :
  is_reply o (send_method_not_allowed o method path) 405 "405" ("Method '" ++ method ++ "' isn't supported for path '" ++ path ++ "'").
Proof. apply replied; [reflexivity|lia]. Qed.
Lemma internal_error o method path :
  is_reply o (send_internal_server_error o method path) 500 "500"
    ("Can't process '" ++ method ++ "' request for path '" ++ path ++ "' due to an internalserver error").
Proof. apply replied; [reflexivity|lia]. Qed.

(** * The builder *)

Lemma plain_getters e :
  error_status e = fst (get_status e) /\ error_id e = fst (get_id e) /\ error_href e = fst (get_href e) /\ error_code e = fst (get_code e) /\
  error_reason e = fst (get_reason e) /\ error_operation e = fst (get_operation e) /\ error_details e = fst (get_details e) /\
  error_timestamp e = fst (get_timestamp e).
Proof.
  assert (G : forall A mask (f : api_error -> A) zero, plain_getter mask f zero e = fst (getter mask f zero e)).
  { intros. unfold plain_getter, getter. destruct e as [e'|]; auto. now destruct (has_bit (e_bits e') mask). }
  repeat split; apply G.
Qed.

Definition apply_change (c : change) : api_error -> api_error :=
  match c with
  | ChStatus z => set_status z | ChId s => set_id s | ChHref s => set_href s | ChCode s => set_code s | ChReason s => set_reason s
  | ChOperation s => set_operation s | ChDetails a => set_details a | ChTimestamp d => set_timestamp d
  end.

Lemma change_applied c e : changed c e (apply_change c e).
Proof.
  destruct c; unfold changed, apply_change, get_status, get_id, get_href, get_code, get_reason, get_operation, get_details, get_timestamp, getter,
    set_status, set_id, set_href, set_code, set_reason, set_operation, set_details, set_timestamp;
  cbn [e_bits e_status e_id e_href e_code e_reason e_details e_operation e_timestamp]; bits; repeat split.
Qed.

Lemma new_empty : get_status (Some new_error) = (0%Z, false) /\ get_id (Some new_error) = ("", false) /\ get_href (Some new_error) = ("", false) /\
  get_code (Some new_error) = ("", false) /\ get_reason (Some new_error) = ("", false) /\ get_operation (Some new_error) = ("", false) /\
  get_details (Some new_error) = (ANil, false) /\ get_timestamp (Some new_error) = (None, false).
Proof. repeat split. Qed.

Lemma build_same e : same_error e (build_error e).
Proof. destruct e. repeat split. Qed.

Lemma copy_same b e : same_error e (copy_error b (Some e)).
Proof. destruct e. repeat split. Qed.

Lemma build_and_copy b e : same_error e (build_error e) /\ same_error e (copy_error b (Some e)) /\ same_error b (copy_error b None) /\
  error_kind (Some e) = "Error".
Proof. split; [apply build_same|]. split; [apply copy_same|]. repeat split. Qed.

Lemma panic_reply o : is_reply o (send_panic o) 200 "1000" "An unexpected error happened, please check the log of the service for details".
Proof.
  unfold send_panic, panic_error. set (reason := "An unexpected error happened, please check the log of the service for details").
  exists [TLBrace; TStr "kind"; TColon; TStr "Error"; TComma; TStr "id"; TColon; TStr "1000"; TComma; TStr "reason"; TColon; TStr reason; TRBrace].
  split; [reflexivity|]. intros inc. exists (set_reason reason (set_id "1000" new_error)). repeat split.
Qed.
