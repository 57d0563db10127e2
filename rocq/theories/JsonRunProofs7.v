(** Proofs about the execution of the code that reads JSON documents: statements. *)
From Coq Require Import Ascii String Bool Arith ZArith NArith Lia Permutation Sorted List.
From Verif Require Import GoStrings GoStringsProofs GoMap GoMapProofs NamesModel NamesProofs ConceptsModel ReporterModel BindingModel GoNamesModel GoTimeModel DeclsModel ChecksModel GoTypesModel
  ObjectsModel ObjectsSpec ObjectsProofs ObjectsProofs2 JsonModel JsonSpec JsonProofs2 JsonProofs3 JsonProofs5 JsonCodeModel JsonRunSpec JsonRunProofs.
Import ListNotations.
Local Open Scope string_scope.

(** * More fuel gives the same results *)

Definition settled {A} (r r' : result A) : Prop := r = OutOfFuel \/ r' = r.
Lemma settled_bind {A B} (r r' : result A) (f f' : A -> list token -> result B) : settled r r' -> (forall a l, settled (f a l) (f' a l)) -> settled (rbind r f) (rbind r' f').
Proof. intros [->| ->] H; [now left|]. destruct r; cbn; [apply H|now right|now left]. Qed.
Lemma parse_settled n :
  (forall m l, n <= m -> settled (parse_json n l) (parse_json m l)) /\
  (forall m acc l, n <= m -> settled (parse_items n acc l) (parse_items m acc l)) /\
  (forall m acc k l, n <= m -> settled (parse_members n acc k l) (parse_members m acc k l)).
Proof.
  induction n as [|n (I1 & I2 & I3)]; [split; [|split]; intros; now left|]. split; [|split]; intros [|m]; try (intros; lia).
  - intros l L. cbn [parse_json]. destruct l as [|[] l]; try (now right).
    + destruct l as [|[] l]; try (now right). destruct l as [|[] l]; try (now right). apply I3. lia.
    + destruct l as [|[] l]; try (apply I2; lia). now right.
  - intros acc l L. cbn [parse_items]. apply settled_bind; [apply I1; lia|]. intros j [|[] r]; try (now right). apply I2. lia.
  - intros acc k l L. cbn [parse_members]. apply settled_bind; [apply I1; lia|]. intros j [|[] r]; try (now right). destruct r as [|[] r]; try (now right).
    + destruct r as [|[] r]; try (now right). apply I3. lia.
    + destruct r as [|[] r]; try (now right). apply I3. lia.
Qed.
Lemma parse_more n m l : n <= m -> settled (parse_json n l) (parse_json m l).
Proof. apply parse_settled. Qed.

(** * Maps *)

Lemma separated_keys {A} (m : list (string * A)) : NoDup (mkeys m) -> GoMapProofs.separated (fun a b : string * A => Z.ltb (str_compare (fst a) (fst b)) 0) m.
Proof.
  unfold mkeys, GoMapProofs.separated. induction m as [|a m IH]; intros N; constructor.
  - apply Forall_forall. intros b H. cbn in N. inversion N as [|? ? Na Nm]; subst. destruct (str_trichotomy (fst a) (fst b)) as [L|[L|L]]; [left|exfalso|right].
    + now apply str_less.
    + apply Na. rewrite L. now apply in_map.
    + now apply str_less.
  - inversion N; subst. apply IH; assumption.
Qed.
Lemma insert_map {A B} (less : A -> A -> bool) (less' : B -> B -> bool) (h : A -> B) a l : (forall x y, less' (h x) (h y) = less x y) ->
  insert_sorted less' (h a) (map h l) = map h (insert_sorted less a l).
Proof. intros H. induction l as [|b l IH]; [reflexivity|]. cbn. rewrite H. destruct (less a b); cbn; [reflexivity|now rewrite IH]. Qed.
Lemma canonical_map {A B} (h : A -> B) l : canonical (map (fun p => (fst p, h (snd p))) l) = map (fun p => (fst p, h (snd p))) (canonical l).
Proof.
  unfold canonical. induction l as [|a l IH]; [reflexivity|]. cbn [map sort]. rewrite IH. apply (insert_map _ _ (fun p : string * A => (fst p, h (snd p)))). reflexivity.
Qed.
Lemma canonical_keys {A} (l : list (string * A)) : NoDup (mkeys l) -> NoDup (mkeys (canonical l)).
Proof. intros N. unfold mkeys, canonical. eapply Permutation_NoDup; [|exact N]. apply Permutation_map, sort_perm. Qed.
Lemma canonical_set {A} k (a : A) l : NoDup (mkeys l) -> canonical (mset k a (canonical l)) = canonical (mset k a l).
Proof.
  intros N. unfold canonical at 1 3. apply sort_perm_eq.
  - intros x y z. rewrite !str_less. apply str_lt_trans.
  - intros x. destruct (Z.ltb (str_compare (fst x) (fst x)) 0) eqn:E; [|reflexivity]. apply str_less in E. now apply str_lt_irrefl in E.
  - apply separated_keys, nodup_mset, canonical_keys, N.
  - apply NoDup_Permutation.
    + apply (NoDup_map_inv fst). apply nodup_mset, canonical_keys, N.
    + apply (NoDup_map_inv fst). apply nodup_mset, N.
    + intros [j b]. rewrite <- !mget_in_iff by (apply nodup_mset; auto using canonical_keys). rewrite !mget_mset. destruct (String.eqb j k); [reflexivity|].
      rewrite !mget_in_iff by auto using canonical_keys. unfold canonical. now rewrite sort_in.
Qed.
Lemma mset_map {A B} (h : A -> B) k a l : mset k (h a) (map (fun p => (fst p, h (snd p))) l) = map (fun p => (fst p, h (snd p))) (mset k a l).
Proof. induction l as [|[k' a'] l IH]; [reflexivity|]. cbn. destruct (String.eqb k k'); cbn; [reflexivity|now rewrite IH]. Qed.

(** * Statements *)

Section Reading.
  Context (o : oracle) (constants : list (string * string)) (structures : string -> option (list (string * gv))) (limit : nat).
  Context (call : string -> list gv -> state -> answer).
  Notation eval := (eval o constants structures limit call).
  Notation exec := (exec o constants structures limit call).
  Notation blk := (block o constants structures limit call).

  Definition fails (r : flow) : Prop := r = Stops WrongDocument.
  (** The statements put in the variable [x] of the inner block what is read. *)
  Definition puts (f : list (string * gv)) (e : frames) (w : written) (l : list token) (code : list stm) (x : string) (r : result gv) : Prop :=
    match r with
    | Ok g rest => exists f', blk (f :: e) (MkState w l) code = Next (f' :: e) (MkState w rest) /\ mget x f' = Some g /\
                     forall y, ~ In y [x; "text"; "err"] -> mget y f' = mget y f
    | Failed => blk (f :: e) (MkState w l) code = Stops WrongDocument
    | OutOfFuel => True
    end.
  Definition as_value {A} (f : A -> gv) (r : result A) : result gv := rbind r (fun a rest => Ok (f a) rest).

  Lemma read_eval e s m : lookup e "iterator" = Some RIterator -> eval e s (read m) = method_of o limit RIterator m [] s.
  Proof. intros L. unfold read, the_iterator. cbn [JsonRunSpec.eval]. now rewrite L. Qed.

  Lemma puts_define {A} f e w l x a (r : result A) h : (forall s, st_in s = l -> st_out s = w -> eval (f :: e) s a = inputs r h s) -> r <> OutOfFuel -> puts f e w l [TDefine [x] a] x (as_value h r).
  Proof.
    intros H N. specialize (H (MkState w l) eq_refl eq_refl). unfold puts, as_value. destruct r as [g rest| |]; [| |contradiction].
    - cbn [rbind]. exists (mset x (h g) f). cbn [block JsonRunSpec.exec]. rewrite H. cbn [inputs define_all define st_out]. split; [reflexivity|]. split; [apply mget_mset_same|].
      intros y Y. apply mget_mset_other. intros ->. apply Y. now left.
    - cbn [rbind block JsonRunSpec.exec]. now rewrite H.
  Qed.
  (** A call that gives one value. *)
  Lemma puts_call f e w l x a r : (forall s, st_in s = l -> st_out s = w -> match r with Ok g rest => eval (f :: e) s a = Gives g (MkState w rest) | Failed => eval (f :: e) s a = Ends WrongDocument | OutOfFuel => True end) ->
    puts f e w l [TDefine [x] a] x r.
  Proof.
    intros H. specialize (H (MkState w l) eq_refl eq_refl). unfold puts. destruct r as [g rest| |]; [| |exact I].
    - exists (mset x g f). cbn [block JsonRunSpec.exec]. rewrite H. cbn [define_all define]. split; [reflexivity|]. split; [apply mget_mset_same|].
      intros y Y. apply mget_mset_other. intros ->. apply Y. now left.
    - cbn [block JsonRunSpec.exec]. now rewrite H.
  Qed.

  (** The header of the loops that read the members of objects. *)
  Lemma member_step e w l name body : lookup e "iterator" = Some RIterator ->
    leave (blk ([] :: e) (MkState w l) ([TDefine [name] (read "ReadObject"); TIf (XEqual (XVar name) (XText "")) [TBreak] []] ++ body)%list) =
    match read_key l with
    | Ok f r => if String.eqb f "" then Breaks e (MkState w r) else leave (blk ([(name, RString f)] :: e) (MkState w r) body)
    | Failed => Stops WrongDocument
    | OutOfFuel => Stops MoreSteps
    end.
  Proof.
    intros L. cbn [app]. rewrite block_cons. cbn [JsonRunSpec.exec]. rewrite read_eval by exact L.
    change (method_of o limit RIterator "ReadObject" [] (MkState w l)) with (inputs (read_key l) RString (MkState w l)).
    destruct (read_key l) as [f r| |]; cbn [inputs]; [|reflexivity|reflexivity]. cbn [define_all define mset st_out].
    rewrite block_cons. cbn [JsonRunSpec.exec JsonRunSpec.eval lookup mget]. rewrite String.eqb_refl. destruct (String.eqb f "") eqn:E; reflexivity.
  Qed.
  Lemma switch_step e s y f cases d : lookup e y = Some (RString f) ->
    exec e s (TSwitch (XVar y) cases d) = leave (blk ([] :: e) s (match find (fun c => String.eqb f (fst c)) cases with Some c => snd c | None => d end)).
  Proof.
    intros L. cbn [JsonRunSpec.exec JsonRunSpec.eval]. rewrite L. induction cases as [|[c b] cases IH]; [reflexivity|]. cbn [find fst snd].
    destruct (String.eqb f c); [reflexivity|exact IH].
  Qed.
  (** An iteration of the loops that decide with the name of the member. *)
  Lemma case_step e w l cases : lookup e "iterator" = Some RIterator ->
    leave (blk ([] :: e) (MkState w l) ([TDefine ["field"] (read "ReadObject"); TIf (XEqual (XVar "field") (XText "")) [TBreak] []] ++ [TSwitch (XVar "field") cases [TDo (read "ReadAny")]])%list) =
    match read_key l with
    | Ok f r => if String.eqb f "" then Breaks e (MkState w r) else
        leave (leave (blk ([] :: [("field", RString f)] :: e) (MkState w r) (match find (fun c => String.eqb f (fst c)) cases with Some c => snd c | None => [TDo (read "ReadAny")] end)))
    | Failed => Stops WrongDocument
    | OutOfFuel => Stops MoreSteps
    end.
  Proof.
    intros L. rewrite member_step by exact L. destruct (read_key l) as [f r| |]; [|reflexivity|reflexivity]. destruct (String.eqb f ""); [reflexivity|].
    rewrite block_cons, (switch_step _ _ "field" f) by reflexivity. now destruct (leave (blk _ _ _)).
  Qed.
  Lemma any_step e w l n : lookup e "iterator" = Some RIterator -> n <= limit ->
    match parse_json n l with
    | Ok _ rest => blk e (MkState w l) [TDo (read "ReadAny")] = Next e (MkState w rest)
    | Failed => blk e (MkState w l) [TDo (read "ReadAny")] = Stops WrongDocument
    | OutOfFuel => True
    end.
  Proof.
    intros L N. pose proof (parse_more n limit l N) as M.
    assert (B : blk e (MkState w l) [TDo (read "ReadAny")] = match inputs (parse_json limit l) (fun _ => unit_value) (MkState w l) with Gives _ s => Next e s | Ends x => Stops x end).
    { cbn [block JsonRunSpec.exec]. unfold read, the_iterator. cbn [perform JsonRunSpec.eval]. rewrite L. cbn [method_of String.eqb Ascii.eqb Bool.eqb orb st_in].
      destruct (inputs (parse_json limit l) (fun _ => unit_value) (MkState w l)); reflexivity. }
    rewrite B. destruct (parse_json n l); [| |exact I]; destruct M as [M|M]; try discriminate; rewrite M; reflexivity.
  Qed.

  Lemma string_in l : read_string l <> OutOfFuel.
  Proof. destruct l as [|[] l]; discriminate. Qed.
  Lemma bool_in l : read_bool l <> OutOfFuel.
  Proof. destruct l as [|[] l]; discriminate. Qed.
  Lemma int_in l : read_int l <> OutOfFuel.
  Proof. destruct l as [|[] l]; try discriminate. cbn. destruct (parse_int s); discriminate. Qed.
  Lemma float_in l : read_float o l <> OutOfFuel.
  Proof. destruct l as [|[] l]; try discriminate. cbn. destruct (parse_float o s); discriminate. Qed.

  Lemma puts_string f e w l x : lookup (f :: e) "iterator" = Some RIterator -> puts f e w l [TDefine [x] (read "ReadString")] x (as_value RString (read_string l)).
  Proof. intros L. apply puts_define; [|apply string_in]. intros s <- <-. rewrite read_eval by exact L. reflexivity. Qed.

  (** Dates. *)
  Lemma puts_date f e w l x : lookup (f :: e) "iterator" = Some RIterator -> ~ In x ["text"; "err"; "iterator"] ->
    (forall a y s, call "time.Parse" [a; RString y] s = Gives (RTuple (match parse_rfc3339 y with Some d => [RDate d; RNil] | None => [RDate zero_date; RError] end)) s) ->
    puts f e w l [TDefine ["text"] (read "ReadString"); TDefine [x; "err"] (XCall "time.Parse" [XName "time.RFC3339"; XVar "text"]);
                  TIf (XNotNil (XVar "err")) [TDo (XMethod the_iterator "ReportError" [XText ""; XMethod (XVar "err") "Error" []])] []] x
      (rbind (read_string l) (fun s r => match parse_rfc3339 s with Some d => Ok (RDate d) r | None => Failed end)).
  Proof.
    intros L X P. pose proof (puts_string f e w l "text" L) as Q. unfold puts, as_value in *. rewrite block_cons. cbn [block] in Q.
    destruct (read_string l) as [y r| |]; cbn [rbind] in *; [| |exact I].
    2: { destruct (exec (f :: e) (MkState w l) (TDefine ["text"] (read "ReadString"))); try discriminate. now injection Q as ->. }
    destruct Q as (f' & Q & Gt & K). destruct (exec (f :: e) (MkState w l) (TDefine ["text"] (read "ReadString"))) as [e1 s1|e1 s1|gs e1 s1|z]; try discriminate. injection Q as -> ->.
    rewrite block_cons. cbn [JsonRunSpec.exec JsonRunSpec.eval lookup]. rewrite Gt. cbn [String.eqb Ascii.eqb Bool.eqb]. rewrite P.
    assert (Nx : String.eqb "err" x = false) by (apply String.eqb_neq; intros <-; apply X; cbn; auto).
    assert (NX : x <> "err") by (intros ->; apply X; cbn; auto).
    destruct (parse_rfc3339 y) as [d|]; cbn [results define_all define]; rewrite block_cons; cbn [JsonRunSpec.exec JsonRunSpec.eval lookup]; rewrite mget_mset_same; cbn [not_nil].
    - exists (mset "err" RNil (mset x (RDate d) f')). split; [reflexivity|]. split; [rewrite mget_mset_other, mget_mset_same by congruence; reflexivity|].
      intros z Z. rewrite !mget_mset_other by (intros ->; apply Z; cbn; auto). apply K. intros [<-|[<-|[<-|[]]]]; apply Z; cbn; auto.
    - assert (L' : lookup (mset "err" RError (mset x (RDate zero_date) f') :: e) "iterator" = Some RIterator).
      { cbn [lookup]. rewrite !mget_mset_other by (try discriminate; intros <-; apply X; cbn; auto). rewrite K; [exact L|]. cbn. intuition discriminate. }
      unfold the_iterator. cbn [perform JsonRunSpec.eval]. cbn [lookup] in L' |- *. cbn [mget]. rewrite L'. rewrite mget_mset_same. reflexivity.
  Qed.
  (** Values of enumerated types. *)
  Lemma puts_enum f e w l x n : lookup (f :: e) "iterator" = Some RIterator ->
    puts f e w l [TDefine ["text"] (read "ReadString"); TDefine [x] (XConvert n (XVar "text"))] x (as_value RString (read_string l)).
  Proof.
    intros L. pose proof (puts_string f e w l "text" L) as Q. unfold puts, as_value in *. rewrite block_cons. cbn [block] in Q.
    destruct (read_string l) as [y r| |]; cbn [rbind] in *; [| |exact I].
    2: { destruct (exec (f :: e) (MkState w l) (TDefine ["text"] (read "ReadString"))); try discriminate. now injection Q as ->. }
    destruct Q as (f' & Q & Gt & K). destruct (exec (f :: e) (MkState w l) (TDefine ["text"] (read "ReadString"))) as [e1 s1|e1 s1|gs e1 s1|z]; try discriminate. injection Q as -> ->.
    rewrite block_cons. cbn [JsonRunSpec.exec JsonRunSpec.eval lookup]. rewrite Gt. cbn [define_all define]. exists (mset x (RString y) f'). split; [reflexivity|]. split; [apply mget_mset_same|].
    intros z Z. rewrite mget_mset_other by (intros ->; apply Z; cbn; auto). apply K. intros [<-|[<-|[<-|[]]]]; apply Z; cbn; auto.
  Qed.
  (** Values of any type. *)
  Lemma puts_any f e w l x n : lookup (f :: e) "iterator" = Some RIterator -> x <> "iterator" -> n <= limit ->
    puts f e w l [TVar x "interface{}"; TDo (XMethod the_iterator "ReadVal" [XAddr x])] x
      (rbind (parse_json n l) (fun j r => match any_of o j with Some a => Ok (RAny a) r | None => Failed end)).
  Proof.
    intros L X N. pose proof (parse_more n limit l N) as M. unfold puts.
    assert (B : blk (f :: e) (MkState w l) [TVar x "interface{}"; TDo (XMethod the_iterator "ReadVal" [XAddr x])] =
      match parse_json limit l with
      | Ok j r => match any_of o j with Some a => Next (mset x (RAny a) (mset x (RAny ANil) f) :: e) (MkState w r) | None => Stops WrongDocument end
      | Failed => Stops WrongDocument
      | OutOfFuel => Stops MoreSteps
      end).
    { rewrite block_cons. cbn [JsonRunSpec.exec zero_of_type String.eqb Ascii.eqb Bool.eqb define]. rewrite block_cons. cbn [JsonRunSpec.exec]. unfold the_iterator.
      cbn [perform String.eqb Ascii.eqb Bool.eqb st_in st_out]. destruct (parse_json limit l) as [j r| |]; [|reflexivity|reflexivity]. destruct (any_of o j) as [a|]; [|reflexivity].
      cbn [store update]. rewrite mget_mset_same. reflexivity. }
    rewrite B. destruct (parse_json n l) as [j r| |]; cbn [rbind]; [| |exact I]; destruct M as [M|M]; try discriminate; rewrite M; [|reflexivity].
    destruct (any_of o j) as [a|]; [|reflexivity]. eexists. split; [reflexivity|]. split; [apply mget_mset_same|]. intros y Y. rewrite !mget_mset_other by (intros ->; apply Y; now left). reflexivity.
  Qed.
End Reading.
