(** Proofs about reading JSON: the readers compute a function of the JSON value. *)
From Coq Require Import Ascii String Bool Arith ZArith NArith Lia Permutation List.
From Verif Require Import GoStrings GoMap GoMapProofs NamesModel NamesSpec NamesProofs ConceptsModel ConceptsSpec BindingModel GoNamesModel
  GoTimeModel GoTimeSpec ReporterModel ObjectsModel ObjectsSpec ObjectsProofs ObjectsProofs2 ObjectsProofs3 JsonModel JsonSpec
  JsonProofs JsonProofs2 JsonProofs3.
Import ListNotations.
Local Open Scope string_scope.

(** * The generic reader *)

Lemma tokens_head j : exists t r, tokens j = t :: r /\ t <> TRBracket /\ t <> TRBrace /\ t <> TComma /\ t <> TColon.
Proof. destruct j; cbn; do 2 eexists; (split; [reflexivity|]); repeat split; discriminate. Qed.

Lemma tokens_array x l : tokens (JArr (x :: l)) = (TLBracket :: tokens x ++ commas (map tokens l) ++ [TRBracket])%list.
Proof. cbn [tokens map]. rewrite separated_cons, <- app_assoc. reflexivity. Qed.

Lemma tokens_members p l : tokens (JObj (p :: l)) = (TLBrace :: member p ++ commas (map member l) ++ [TRBrace])%list.
Proof. rewrite tokens_object. cbn [map]. rewrite separated_cons, <- app_assoc. reflexivity. Qed.

Definition parses (j : json) : Prop :=
  forall n rest, length (tokens j) < n -> parse_json n (tokens j ++ rest) = Ok j rest.

Lemma items_parsed l : Forall parses l -> forall x acc n rest, parses x ->
  length (tokens x ++ commas (map tokens l)) + 1 < n ->
  parse_items n acc (tokens x ++ commas (map tokens l) ++ TRBracket :: rest) = Ok (JArr (acc ++ x :: l)) rest.
Proof.
  intros F. induction F as [|y l H F IH]; intros x acc n rest Hx L; (destruct n as [|n]; [lia|]).
  - cbn [map commas flat_map app parse_items] in *. rewrite Hx by (rewrite app_length in L; lia). reflexivity.
  - cbn [map] in *. change (commas (tokens y :: map tokens l)) with (TComma :: tokens y ++ commas (map tokens l))%list in *.
    cbn [parse_items app]. rewrite Hx by (rewrite app_length in L; cbn in L; lia). cbn [rbind]. rewrite <- app_assoc.
    rewrite IH; auto; [now rewrite <- app_assoc|]. rewrite app_length in L. cbn [length] in L. lia.
Qed.

Lemma members_parsed l : Forall (fun p => parses (snd p)) l -> forall k x acc n rest, parses x ->
  length (tokens x ++ commas (map member l)) + 1 < n ->
  parse_members n acc k (tokens x ++ commas (map member l) ++ TRBrace :: rest) = Ok (JObj (acc ++ (k, x) :: l)) rest.
Proof.
  intros F. induction F as [|[k' y] l H F IH]; intros k x acc n rest Hx L; (destruct n as [|n]; [lia|]).
  - cbn [map commas flat_map app parse_members] in *. rewrite Hx by (rewrite app_length in L; lia). reflexivity.
  - cbn [map] in *.
    change (commas (member (k', y) :: map member l)) with (TComma :: TStr k' :: TColon :: tokens y ++ commas (map member l))%list in *.
    cbn [parse_members app]. rewrite Hx by (rewrite app_length in L; cbn in L; lia). cbn [rbind]. rewrite <- app_assoc.
    rewrite IH; auto; [now rewrite <- app_assoc|]. rewrite app_length in L. cbn [length] in L. cbn in H. lia.
Qed.

Lemma json_parsed : forall j, parses j.
Proof.
  induction j using json_ind2; intros n rest L; (destruct n as [|n]; [lia|]); try reflexivity.
  - destruct l as [|x l]; [reflexivity|]. inversion H; subst. rewrite tokens_array in *. cbn [app parse_json].
    destruct (tokens_head x) as (t & r & E & N & _).
    replace ((tokens x ++ commas (map tokens l) ++ [TRBracket]) ++ rest)%list with (tokens x ++ commas (map tokens l) ++ TRBracket :: rest)%list
      by (rewrite <- !app_assoc; reflexivity).
    assert (G : parse_items n [] (tokens x ++ commas (map tokens l) ++ TRBracket :: rest) = Ok (JArr (x :: l)) rest).
    { apply (items_parsed l) with (acc := []); auto. cbn [length] in L. rewrite !app_length in *. cbn in L. lia. }
    rewrite E in *. cbn [app] in *. destruct t; try congruence; exact G.
  - destruct l as [|[k x] l]; [reflexivity|]. inversion H; subst. rewrite tokens_members in *. cbn [app parse_json member fst snd].
    replace ((tokens x ++ commas (map member l) ++ [TRBrace]) ++ rest)%list with (tokens x ++ commas (map member l) ++ TRBrace :: rest)%list
      by (rewrite <- !app_assoc; reflexivity).
    apply (members_parsed l) with (acc := []); auto. unfold member in L at 1. cbn [length fst snd app] in L. rewrite !app_length in *. cbn in L. lia.
Qed.

(** * Reading as a function *)

Definition decode_string (j : json) : option string := match j with JStr s => Some s | JNull => Some "" | _ => None end.
Definition decode_int (j : json) : option Z := match j with JNum s => parse_int s | _ => None end.

Definition object_step (dec : key -> bool -> json -> option value) (t : typ) (acc : option object) (p : string * json) : option object :=
  match acc with
  | None => None
  | Some b =>
      let f := fst p in
      if is_class t && String.eqb f "kind" then
        match decode_string (snd p) with
        | Some s => Some (MkObject (if String.eqb s (object_name t ++ "Link") then set_bit (o_bits b) 1 else o_bits b) (o_id b) (o_href b) (o_fields b))
        | None => None
        end
      else if is_class t && String.eqb f "id" then
        match decode_string (snd p) with
        | Some s => Some (MkObject (set_bit (o_bits b) 2) s (o_href b) (o_fields b))
        | None => None
        end
      else if is_class t && String.eqb f "href" then
        match decode_string (snd p) with
        | Some s => Some (MkObject (set_bit (o_bits b) 4) (o_id b) s (o_fields b))
        | None => None
        end
      else
        match find_tag f 0 (t_attrs t) with
        | Some (i, a) =>
            match dec (a_type a) (a_link a) (snd p) with
            | Some x => Some (MkObject (set_bit (o_bits b) (bit_mask t i)) (o_id b) (o_href b) (set_nth i x (o_fields b)))
            | None => None
            end
        | None => Some b
        end
  end.

Definition list_step (items : json -> option (list value)) (te : typ) (acc : option (string * bool * value)) (p : string * json) :
  option (string * bool * value) :=
  match acc with
  | None => None
  | Some (h, b, s) =>
      if String.eqb (fst p) "kind" then
        match decode_string (snd p) with Some x => Some (h, String.eqb x (object_name te ++ "ListLink"), s) | None => None end
      else if String.eqb (fst p) "href" then
        match decode_string (snd p) with Some x => Some (x, b, s) | None => None end
      else if String.eqb (fst p) "items" then
        match items (snd p) with Some m => Some (h, b, VSlice m) | None => None end
      else Some (h, b, s)
  end.

Definition entry_step (dec : json -> option value) (acc : option (list (string * value))) (p : string * json) : option (list (string * value)) :=
  match acc with
  | None => None
  | Some m => match dec (snd p) with Some x => Some (mset (fst p) x m) | None => None end
  end.

Section Decode.
  Context (o : oracle) (v : version).

  Definition decode_items (dec : json -> option value) (j : json) : option (list value) :=
    match j with
    | JNull => Some []
    | JArr l => sequence (map dec l)
    | _ => None
    end.

  Fixpoint decode (k : key) (link : bool) (j : json) {struct j} : option value :=
    if is_builtin nBoolean k then match j with JBool b => Some (VScalar (SBool b)) | _ => None end
    else if is_builtin nInteger k then option_map (fun z => VScalar (SInt z)) (decode_int j)
    else if is_builtin nLong k then option_map (fun z => VScalar (SInt z)) (decode_int j)
    else if is_builtin nFloat k then
      match j with JNum s => option_map (fun z => VScalar (SFloat z)) (parse_float o s) | _ => None end
    else if is_builtin nString k then option_map (fun s => VScalar (SString s)) (decode_string j)
    else
      match type_at k v with
      | None => None
      | Some t =>
          if is_interface t then option_map (fun a => VScalar (SAny a)) (any_of o j)
          else if is_builtin nDate k then
            match decode_string j with Some s => option_map (fun d => VScalar (SDate d)) (parse_rfc3339 s) | None => None end
          else if is_enum t then option_map (fun s => VScalar (SString s)) (decode_string j)
          else if is_struct t then
            match j with
            | JNull => Some (VObject (new_builder v t))
            | JObj ms => option_map VObject (fold_left (object_step decode t) ms (Some (new_builder v t)))
            | _ => None
            end
          else if is_list t then
            if link then
              match j with
              | JNull => Some (VList "" false VNil)
              | JObj ms =>
                  option_map (fun '(h, b, s) => VList h b s)
                    (fold_left (list_step (fun x =>
                        match x with
                        | JNull => Some []
                        | JArr l => sequence (map (decode (elem_key t) false) l)
                        | _ => None
                        end) (match type_at (elem_key t) v with Some te => te | None => t end)) ms (Some ("", false, VNil)))
              | _ => None
              end
            else
              match j with
              | JNull => Some (VSlice [])
              | JArr l => option_map VSlice (sequence (map (decode (elem_key t) false) l))
              | _ => None
              end
          else if is_map t then
            match j with
            | JNull => Some (VMap (canonical []))
            | JObj ms => option_map (fun m => VMap (canonical m)) (fold_left (entry_step (decode (elem_key t) false)) ms (Some []))
            | _ => None
            end
          else None
      end.

  (** The readers stop at members whose name is empty: there are none where they look at them. *)
  Fixpoint legible (k : key) (link : bool) (j : json) {struct j} : Prop :=
    match type_at k v with
    | None => True
    | Some t =>
        if is_interface t then True
        else if is_struct t then
          match j with
          | JObj ms =>
              all1 (fun p => fst p <> "" /\
                match find_tag (fst p) 0 (t_attrs t) with
                | Some (_, a) => legible (a_type a) (a_link a) (snd p)
                | None => True
                end) ms
          | _ => True
          end
        else if is_list t then
          match j with
          | JArr l => all1 (legible (elem_key t) false) l
          | JObj ms =>
              all1 (fun p => fst p <> "" /\ match snd p with JArr l => all1 (legible (elem_key t) false) l | _ => True end) ms
          | _ => True
          end
        else
          match j with
          | JObj ms => all1 (fun p => fst p <> "" /\ legible (elem_key t) false (snd p)) ms
          | _ => True
          end
    end.

  Definition legible_member (t : typ) (p : string * json) : Prop :=
    fst p <> "" /\
    match find_tag (fst p) 0 (t_attrs t) with
    | Some (_, a) => legible (a_type a) (a_link a) (snd p)
    | None => True
    end.

  Definition legible_items (e : key) (j : json) : Prop :=
    match j with JArr l => all1 (legible e false) l | _ => True end.

  Lemma clean_legible : forall j, clean j -> (forall k link, legible k link j) /\ (forall e, legible_items e j).
  Proof.
    induction j using json_ind2; intros C; cbn [legible_items]; split; auto; intros k; try intros link; cbn [legible];
      try (destruct (type_at k v) as [t|]; auto; destruct (is_interface t), (is_struct t), (is_list t); now auto).
    - assert (A : forall e, all1 (legible e false) l).
      { intros e. induction H; cbn in *; auto. destruct C as [C1 C2]. split; [now apply H|auto]. }
      destruct (type_at k v) as [t|]; auto. destruct (is_interface t), (is_struct t), (is_list t); auto.
    - intros. induction H; cbn in *; auto. destruct C as [C1 C2]. split; [now apply H|auto].
    - destruct (type_at k v) as [t|]; auto. destruct (is_interface t); auto. destruct (is_struct t); [|destruct (is_list t)].
      all: clear link; induction H as [|[f x] l H F IH]; cbn [all1 fst snd] in *; auto; destruct C as [[C1 C2] C3];
        (split; [split; auto|now apply IH]).
      + destruct (find_tag f 0 (t_attrs t)) as [[i a]|]; auto. now apply H.
      + now apply H.
      + now apply H.
  Qed.

  Definition of_option {A} (x : option A) (rest : list token) : result A :=
    match x with Some a => Ok a rest | None => Failed end.

  Definition reads (j : json) : Prop :=
    forall k link n rest, legible k link j -> S (length (tokens j)) < n ->
    read_value o v n k link (tokens j ++ rest) = of_option (decode k link j) rest.

  Lemma fold_none {A B} (f : option A -> B -> option A) l : (forall b, f None b = None) -> fold_left f l None = None.
  Proof. intros H. induction l as [|b l IH]; cbn; auto. now rewrite H. Qed.

  Lemma string_read j rest : read_string (tokens j ++ rest) = of_option (decode_string j) rest.
  Proof. destruct j; reflexivity. Qed.

  Lemma object_loop t l : Forall (fun p => reads (snd p)) l -> all1 (legible_member t) l ->
    forall b n rest, length (commas (map member l)) < n ->
    read_object o v n t b (commas (map member l) ++ TRBrace :: rest) = of_option (fold_left (object_step decode t) l (Some b)) rest.
  Proof.
    intros F. induction F as [|[f x] l H F IH]; intros C b n rest L; (destruct n as [|n]; [lia|]); [reflexivity|].
    destruct C as [[C1 C2] C3]. cbn [fst snd] in *. cbn [map] in *.
    change (commas (member (f, x) :: map member l)) with (TComma :: TStr f :: TColon :: tokens x ++ commas (map member l))%list in *.
    cbn [app length] in *. rewrite app_length in L. rewrite <- app_assoc. cbn [read_object read_key rbind].
    assert (E : String.eqb f "" = false) by (now apply String.eqb_neq). rewrite E.
    assert (IH' : forall b, read_object o v n t b (commas (map member l) ++ TRBrace :: rest) = of_option (fold_left (object_step decode t) l (Some b)) rest).
    { intros b'. apply IH; auto. lia. }
    cbn [fold_left]. unfold object_step at 2. cbn [fst snd].
    assert (Z : fold_left (object_step decode t) l None = None) by (now apply fold_none).
    destruct (is_class t && String.eqb f "kind").
    { rewrite string_read. destruct (decode_string x); cbn [of_option rbind]; [apply IH'|now rewrite Z]. }
    destruct (is_class t && String.eqb f "id").
    { rewrite string_read. destruct (decode_string x); cbn [of_option rbind]; [apply IH'|now rewrite Z]. }
    destruct (is_class t && String.eqb f "href").
    { rewrite string_read. destruct (decode_string x); cbn [of_option rbind]; [apply IH'|now rewrite Z]. }
    destruct (find_tag f 0 (t_attrs t)) as [[i a]|].
    - rewrite H by (auto; lia). destruct (decode (a_type a) (a_link a) x); cbn [of_option rbind]; [apply IH'|now rewrite Z].
    - rewrite json_parsed by lia. apply IH'.
  Qed.

  Lemma key_start p X : read_key (TLBrace :: member p ++ X) = read_key (TComma :: member p ++ X).
  Proof. reflexivity. Qed.

  Lemma object_start t l : Forall (fun p => reads (snd p)) l -> all1 (legible_member t) l ->
    forall b n rest, length (tokens (JObj l)) < n ->
    read_object o v n t b (tokens (JObj l) ++ rest) = of_option (fold_left (object_step decode t) l (Some b)) rest.
  Proof.
    intros F C b n rest L. destruct l as [|p l].
    - cbn in L. destruct n as [|n]; [lia|]. reflexivity.
    - rewrite <- (object_loop t (p :: l) F C b n rest).
      + rewrite tokens_members. destruct n as [|n]; [reflexivity|].
        change (commas (map member (p :: l))) with (TComma :: member p ++ commas (map member l))%list. cbn [app read_object].
        rewrite <- !app_assoc. cbn [app]. rewrite key_start. reflexivity.
      + rewrite tokens_members in L. change (commas (map member (p :: l))) with (TComma :: member p ++ commas (map member l))%list.
        cbn [length] in *. rewrite !app_length in *. cbn in *. lia.
  Qed.

  Lemma items_loop e l : Forall reads l -> all1 (legible e false) l ->
    forall acc n rest, S (length (commas (map tokens l))) < n ->
    read_items o v n e acc (commas (map tokens l) ++ TRBracket :: rest) =
    of_option (option_map (app acc) (sequence (map (decode e false) l))) rest.
  Proof.
    intros F. induction F as [|x l H F IH]; intros C acc n rest L; (destruct n as [|n]; [lia|]).
    - cbn. now rewrite app_nil_r.
    - destruct C as [C1 C2]. cbn [map] in *. change (commas (tokens x :: map tokens l)) with (TComma :: tokens x ++ commas (map tokens l))%list in *.
      cbn [app length] in *. rewrite app_length in L. rewrite <- app_assoc. cbn [read_items read_more rbind].
      rewrite H by (auto; lia). cbn [sequence]. destruct (decode e false x) as [y|]; cbn [of_option rbind]; [|reflexivity].
      rewrite IH by (auto; lia). destruct (sequence (map (decode e false) l)); cbn; [now rewrite <- app_assoc|reflexivity].
  Qed.

  Lemma items_start e l : Forall reads l -> all1 (legible e false) l ->
    forall n rest, length (tokens (JArr l)) < n ->
    read_items o v n e [] (tokens (JArr l) ++ rest) = of_option (sequence (map (decode e false) l)) rest.
  Proof.
    intros F C n rest L. destruct l as [|x l].
    - cbn in L. destruct n as [|n]; [lia|]. reflexivity.
    - assert (M : sequence (map (decode e false) (x :: l)) = option_map (app []) (sequence (map (decode e false) (x :: l)))).
      { destruct (sequence _); reflexivity. }
      rewrite M, <- (items_loop e (x :: l) F C [] n rest).
      + rewrite tokens_array. destruct n as [|n]; [reflexivity|].
        change (commas (map tokens (x :: l))) with (TComma :: tokens x ++ commas (map tokens l))%list. cbn [app read_items].
        rewrite <- !app_assoc. cbn [app]. destruct (tokens_head x) as (t & r & E & N & _). rewrite E. cbn [app].
        destruct t; try congruence; reflexivity.
      + rewrite tokens_array in L. change (commas (map tokens (x :: l))) with (TComma :: tokens x ++ commas (map tokens l))%list.
        cbn [length] in *. rewrite !app_length in *. cbn in *. lia.
  Qed.

  Lemma entries_loop e l : Forall (fun p => reads (snd p)) l -> all1 (fun p => fst p <> "" /\ legible e false (snd p)) l ->
    forall m n rest, length (commas (map member l)) < n ->
    read_entries o v n e m (commas (map member l) ++ TRBrace :: rest) =
    of_option (fold_left (entry_step (decode e false)) l (Some m)) rest.
  Proof.
    intros F. induction F as [|[f x] l H F IH]; intros C b n rest L; (destruct n as [|n]; [lia|]); [reflexivity|].
    destruct C as [[C1 C2] C3]. cbn [fst snd] in *. cbn [map] in *.
    change (commas (member (f, x) :: map member l)) with (TComma :: TStr f :: TColon :: tokens x ++ commas (map member l))%list in *.
    cbn [app length] in *. rewrite app_length in L. rewrite <- app_assoc. cbn [read_entries read_key rbind].
    assert (E : String.eqb f "" = false) by (now apply String.eqb_neq). rewrite E.
    rewrite H by (auto; lia). cbn [fold_left]. unfold entry_step at 2. cbn [fst snd].
    destruct (decode e false x); cbn [of_option rbind]; [apply IH; auto; lia|]. now rewrite fold_none.
  Qed.

  Lemma entries_start e l : Forall (fun p => reads (snd p)) l -> all1 (fun p => fst p <> "" /\ legible e false (snd p)) l ->
    forall n rest, length (tokens (JObj l)) < n ->
    read_entries o v n e [] (tokens (JObj l) ++ rest) = of_option (fold_left (entry_step (decode e false)) l (Some [])) rest.
  Proof.
    intros F C n rest L. destruct l as [|p l].
    - cbn in L. destruct n as [|n]; [lia|]. reflexivity.
    - rewrite <- (entries_loop e (p :: l) F C [] n rest).
      + rewrite tokens_members. destruct n as [|n]; [reflexivity|].
        change (commas (map member (p :: l))) with (TComma :: member p ++ commas (map member l))%list. cbn [app read_entries].
        rewrite <- !app_assoc. cbn [app]. rewrite key_start. reflexivity.
      + rewrite tokens_members in L. change (commas (map member (p :: l))) with (TComma :: member p ++ commas (map member l))%list.
        cbn [length] in *. rewrite !app_length in *. cbn in *. lia.
  Qed.

  Definition reads_items (j : json) : Prop :=
    forall e n rest, legible_items e j -> length (tokens j) < n ->
    read_items o v n e [] (tokens j ++ rest) = of_option (decode_items (decode e false) j) rest.

  Lemma list_loop t l : Forall (fun p => reads_items (snd p)) l -> all1 (fun p => fst p <> "" /\ legible_items (elem_key t) (snd p)) l ->
    forall h b s n rest, length (commas (map member l)) < n ->
    read_list o v n t h b s (commas (map member l) ++ TRBrace :: rest) =
    of_option (option_map (fun '(h, b, s) => VList h b s)
      (fold_left (list_step (decode_items (decode (elem_key t) false)) (match type_at (elem_key t) v with Some te => te | None => t end)) l (Some (h, b, s)))) rest.
  Proof.
    intros F. induction F as [|[f x] l H F IH]; intros C h b s n rest L; (destruct n as [|n]; [lia|]); [reflexivity|].
    destruct C as [[C1 C2] C3]. cbn [fst snd] in *. cbn [map] in *.
    change (commas (member (f, x) :: map member l)) with (TComma :: TStr f :: TColon :: tokens x ++ commas (map member l))%list in *.
    cbn [app length] in *. rewrite app_length in L. rewrite <- app_assoc. cbn [read_list read_key rbind].
    assert (E : String.eqb f "" = false) by (now apply String.eqb_neq). rewrite E.
    cbn [fold_left]. unfold list_step at 2. cbn [fst snd].
    set (step := list_step _ _) in *.
    assert (Z : fold_left step l None = None) by (now apply fold_none).
    destruct (String.eqb f "kind").
    { rewrite string_read. destruct (decode_string x); cbn [of_option rbind]; [apply IH; auto; lia|now rewrite Z]. }
    destruct (String.eqb f "href").
    { rewrite string_read. destruct (decode_string x); cbn [of_option rbind]; [apply IH; auto; lia|now rewrite Z]. }
    destruct (String.eqb f "items").
    { rewrite H by (auto; lia). destruct (decode_items (decode (elem_key t) false) x); cbn [of_option rbind]; [apply IH; auto; lia|now rewrite Z]. }
    rewrite json_parsed by lia. apply IH; auto. lia.
  Qed.

  Lemma list_start t l : Forall (fun p => reads_items (snd p)) l -> all1 (fun p => fst p <> "" /\ legible_items (elem_key t) (snd p)) l ->
    forall h b s n rest, length (tokens (JObj l)) < n ->
    read_list o v n t h b s (tokens (JObj l) ++ rest) =
    of_option (option_map (fun '(h, b, s) => VList h b s)
      (fold_left (list_step (decode_items (decode (elem_key t) false)) (match type_at (elem_key t) v with Some te => te | None => t end)) l (Some (h, b, s)))) rest.
  Proof.
    intros F C h b s n rest L. destruct l as [|p l].
    - cbn in L. destruct n as [|n]; [lia|]. reflexivity.
    - rewrite <- (list_loop t (p :: l) F C h b s n rest).
      + rewrite tokens_members. destruct n as [|n]; [reflexivity|].
        change (commas (map member (p :: l))) with (TComma :: member p ++ commas (map member l))%list. cbn [app read_list].
        rewrite <- !app_assoc. cbn [app]. rewrite key_start. reflexivity.
      + rewrite tokens_members in L. change (commas (map member (p :: l))) with (TComma :: member p ++ commas (map member l))%list.
        cbn [length] in *. rewrite !app_length in *. cbn in *. lia.
  Qed.

  Lemma read_value_eq n k link l : read_value o v (S n) k link l =
    if is_builtin nBoolean k then rbind (read_bool l) (fun b r => Ok (VScalar (SBool b)) r)
    else if is_builtin nInteger k then rbind (read_int l) (fun z r => Ok (VScalar (SInt z)) r)
    else if is_builtin nLong k then rbind (read_int l) (fun z r => Ok (VScalar (SInt z)) r)
    else if is_builtin nFloat k then rbind (read_float o l) (fun z r => Ok (VScalar (SFloat z)) r)
    else if is_builtin nString k then rbind (read_string l) (fun s r => Ok (VScalar (SString s)) r)
    else
      match type_at k v with
      | None => Failed
      | Some t =>
          if is_interface t then
            rbind (parse_json n l) (fun j r => match any_of o j with Some a => Ok (VScalar (SAny a)) r | None => Failed end)
          else if is_builtin nDate k then
            rbind (read_string l) (fun s r =>
              match parse_rfc3339 s with Some d => Ok (VScalar (SDate d)) r | None => Failed end)
          else if is_enum t then rbind (read_string l) (fun s r => Ok (VScalar (SString s)) r)
          else if is_struct t then rbind (read_object o v n t (new_builder v t) l) (fun b r => Ok (VObject b) r)
          else if is_list t then
            if link then rbind (read_list o v n t "" false VNil l) (fun x r => Ok x r)
            else rbind (read_items o v n (elem_key t) [] l) (fun items r => Ok (VSlice items) r)
          else if is_map t then rbind (read_entries o v n (elem_key t) [] l) (fun m r => Ok (VMap (canonical m)) r)
          else Failed
      end.
  Proof. reflexivity. Qed.

  Lemma read_object_eq (n : nat) (t : typ) (b : object) (l : list token) : read_object o v (S n) t b l =
    rbind (read_key l) (fun f l =>
      if String.eqb f "" then Ok b l
      else if is_class t && String.eqb f "kind" then
        rbind (read_string l) (fun s l =>
          let bits := if String.eqb s (object_name t ++ "Link") then set_bit (o_bits b) 1 else o_bits b in
          read_object o v n t (MkObject bits (o_id b) (o_href b) (o_fields b)) l)
      else if is_class t && String.eqb f "id" then
        rbind (read_string l) (fun s l =>
          read_object o v n t (MkObject (set_bit (o_bits b) 2) s (o_href b) (o_fields b)) l)
      else if is_class t && String.eqb f "href" then
        rbind (read_string l) (fun s l =>
          read_object o v n t (MkObject (set_bit (o_bits b) 4) (o_id b) s (o_fields b)) l)
      else
        match find_tag f 0 (t_attrs t) with
        | Some (i, a) =>
            rbind (read_value o v n (a_type a) (a_link a) l) (fun x l =>
              read_object o v n t
                (MkObject (set_bit (o_bits b) (bit_mask t i)) (o_id b) (o_href b) (set_nth i x (o_fields b))) l)
        | None => rbind (parse_json n l) (fun _ l => read_object o v n t b l)
        end).
  Proof. reflexivity. Qed.

  Lemma read_list_eq (n : nat) (t : typ) (href : string) (link : bool) (items : value) (l : list token) : read_list o v (S n) t href link items l =
    rbind (read_key l) (fun f l =>
      if String.eqb f "" then Ok (VList href link items) l
      else if String.eqb f "kind" then
        rbind (read_string l) (fun s l =>
          let te := match type_at (elem_key t) v with Some te => te | None => t end in
          read_list o v n t href (String.eqb s (object_name te ++ "ListLink")) items l)
      else if String.eqb f "href" then rbind (read_string l) (fun s l => read_list o v n t s link items l)
      else if String.eqb f "items" then
        rbind (read_items o v n (elem_key t) [] l) (fun m l => read_list o v n t href link (VSlice m) l)
      else rbind (parse_json n l) (fun _ l => read_list o v n t href link items l)).
  Proof. reflexivity. Qed.

  Lemma read_items_eq (n : nat) (e : key) (acc : list value) (l : list token) : read_items o v (S n) e acc l =
    rbind (read_more l) (fun more l =>
      if more then rbind (read_value o v n e false l) (fun x l => read_items o v n e (acc ++ [x]) l)
      else Ok acc l).
  Proof. reflexivity. Qed.

  Lemma read_entries_eq (n : nat) (e : key) (acc : list (string * value)) (l : list token) : read_entries o v (S n) e acc l =
    rbind (read_key l) (fun f l =>
      if String.eqb f "" then Ok acc l
      else rbind (read_value o v n e false l) (fun x l => read_entries o v n e (mset f x acc) l)).
  Proof. reflexivity. Qed.

  Lemma value_read : forall j, reads j /\ reads_items j.
  Proof.
    induction j using json_ind2; (split; [intros k link n rest C L|intros e n rest C L]);
      (destruct n as [|n]; [lia|]); try reflexivity.
    all: try (revert C; rewrite read_value_eq; cbn [decode legible];
      destruct (is_builtin nBoolean k); [intros; reflexivity|]; destruct (is_builtin nInteger k); [intros; try reflexivity; cbn; now destruct (parse_int _)|];
      destruct (is_builtin nLong k); [intros; try reflexivity; cbn; now destruct (parse_int _)|];
      destruct (is_builtin nFloat k); [intros; try reflexivity; cbn; now destruct (parse_float _ _)|];
      destruct (is_builtin nString k); [intros; reflexivity|]; destruct (type_at k v) as [t|]; [|intros; reflexivity];
      destruct (is_interface t); [intros; rewrite json_parsed by lia; cbn [rbind]; intros; now destruct (any_of o _)|];
      destruct (is_builtin nDate k); [intros; rewrite string_read; cbn [decode_string]; try reflexivity; cbn [of_option rbind]; intros; now destruct (parse_rfc3339 _)|];
      destruct (is_enum t); [intros; reflexivity|]).
    1-4: destruct n as [|n]; [cbn in L; lia|]; destruct (is_struct t); [intros; reflexivity|]; destruct (is_list t); [intros; now destruct link|]; intros; now destruct (is_map t).
    all: try match goal with H : Forall _ _ |- _ =>
        assert (F1 := Forall_impl _ (fun x (p : reads _ /\ reads_items _) => proj1 p) H);
        assert (F2 := Forall_impl _ (fun x (p : reads _ /\ reads_items _) => proj2 p) H) end.
    - assert (N : exists m, n = S m) by (destruct n; [lia|eauto]).
      destruct (is_struct t); [intros; now destruct N as [m ->]|]; destruct (is_list t).
      + destruct link; [intros; now destruct N as [m ->]|]. intros C; rewrite items_start by (auto; lia). intros; now destruct (sequence _).
      + destruct N as [m ->]. intros; now destruct (is_map t).
    - now rewrite items_start by (auto; lia).
    - destruct (is_struct t).
      { intros C; rewrite object_start by (auto; lia). intros; now destruct (fold_left _ _ _). }
      destruct (is_list t).
      { destruct link; [|intros; destruct n; [lia|reflexivity]]. intros C; rewrite list_start by (auto; lia).
        unfold decode_items. destruct (fold_left _ _ _) as [[[h b] s]|]; reflexivity. }
      destruct (is_map t); [|intros; reflexivity].
      intros C; rewrite entries_start by (auto; lia). intros; now destruct (fold_left _ _ _).
  Qed.
End Decode.
