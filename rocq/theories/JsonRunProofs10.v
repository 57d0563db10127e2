(** Proofs about the execution of the code that reads JSON documents: the functions. *)
From Coq Require Import Ascii String Bool Arith ZArith NArith Lia Permutation List.
From Verif Require Import GoStrings GoMap GoMapProofs NamesModel ConceptsModel ReporterModel BindingModel GoNamesModel GoTimeModel DeclsModel DeclsSpec DeclsProofs ChecksModel GoTypesModel GoTypesSpec GoTypesProofs GoTypesProofs2 GoTypesProofs3
  ObjectsModel ObjectsSpec ObjectsProofs ObjectsProofs2 JsonModel JsonSpec JsonProofs3 JsonProofs4 JsonProofs5 JsonProofs6 JsonCodeModel JsonCodeSpec JsonRunSpec JsonRunProofs JsonRunProofs2 JsonRunProofs3 JsonRunProofs4 JsonRunProofs5 JsonRunProofs6 JsonRunProofs7 JsonRunProofs8 JsonRunProofs9.
Import ListNotations.
Local Open Scope string_scope.

Section Version.
  Context (o : oracle) (pkg : string) (v : version) (fs : list func) (structures : string -> option (list (string * gv))) (limit : nat).
  Context (PKG : package_path pkg) (STD : standard v) (NAMED : named_well v) (READY : json_ready v).
  Context (CODE : json_code pkg v = Done (fs, [])) (ONCE : declared_once v fs) (DECL : declares v structures).
  Notation constants := (kind_constants v).
  Notation C := (call_function o constants structures fs limit).
  Notation eval n := (eval o constants structures limit (C n)).
  Notation exec n := (exec o constants structures limit (C n)).
  Notation blk n := (block o constants structures limit (C n)).
  Notation puts n := (puts o constants structures limit (C n)).
  Notation shown := (shown v).
  Notation reader := (reader v).

  Notation iteration := (iteration o v fs structures limit).
  Notation entry := (entry o v fs structures limit).
  Notation step := (step o v fs structures limit).
  Notation value_runs := (value_runs o pkg v fs structures limit).
  Notation object_runs := (object_runs o pkg v fs structures limit).
  Notation link_runs := (link_runs o v fs structures limit).
  Notation items_run := (items_run o pkg v fs structures limit).
  Notation entries_run := (entries_run o v fs structures limit).

  (** * Items of lists and entries of maps *)

  Lemma items_next m : value_runs m -> items_run m -> items_run (S m).
  Proof.
    intros HV HI n lim ke te acc l w code rs L1 L2 L3 G K R body. rewrite read_items_eq. destruct lim as [|lim]; [lia|]. cbn [loop].
    assert (B : forall l, body (items_frames v ke acc) (MkState w l) = match read_more l with
      | Ok true r => leave (blk n ([] :: items_frames v ke acc) (MkState w r) (code ++ [TAssign [XVar "list"] (XAppend (XVar "list") (XVar "item"))])%list)
      | Ok false r => Breaks (items_frames v ke acc) (MkState w r)
      | Failed => Stops WrongDocument
      | OutOfFuel => Stops MoreSteps end).
    { intros l'. unfold body, JsonRunProofs9.step. rewrite read_eval by reflexivity.
      change (method_of o limit RIterator "ReadArray" [] (MkState w l')) with (inputs (read_more l') RBool (MkState w l')). destruct (read_more l') as [[] r| |]; reflexivity. }
    rewrite B. destruct (read_more l) as [[] r| |]; cbn [rbind]; [|reflexivity|reflexivity|exact I].
    pose proof (HV n ke te false "item" [] (items_frames v ke acc) w r code rs ltac:(lia) ltac:(lia) (element_acceptable v ke te G K) G (or_intror (conj eq_refl (conj (element_not_map te K) eq_refl))) R eq_refl) as P.
    unfold as_value in P. destruct (JsonModel.read_value o v m ke false r) as [y rest| |]; cbn [rbind] in P |- *; [| |exact I].
    - destruct P as (f' & Bk & Gi & Kp). rewrite block_app, Bk. cbn [block JsonRunSpec.exec JsonRunSpec.eval].
      assert (Ls : mget "list" f' = None) by (rewrite Kp; [reflexivity|cbn; intuition discriminate]).
      cbn [lookup]. rewrite Ls, Gi. cbn [items_frames lookup mget String.eqb Ascii.eqb Bool.eqb store_all store update]. rewrite Ls. cbn [mget mset String.eqb Ascii.eqb Bool.eqb continue leave tl].
      specialize (HI n lim ke te (acc ++ [y])%list rest w code rs ltac:(lia) ltac:(lia) ltac:(lia) G K R). cbv zeta in HI. unfold items_frames in HI at 1 3. rewrite map_app in HI. exact HI.
    - unfold JsonRunProofs7.puts in P. rewrite block_app, P. reflexivity.
  Qed.

  Lemma entries_next m : value_runs m -> entries_run m -> entries_run (S m).
  Proof.
    intros HV HE n lim ke te f e acc l w L1 L2 L3 G K It Gv N body. rewrite read_entries_eq. destruct lim as [|lim]; [lia|]. cbn [loop].
    assert (B : body (f :: e) (MkState w l) = match read_key l with
      | Ok key r => if String.eqb key "" then Breaks (f :: e) (MkState w r) else leave (blk n ([("key", RString key)] :: f :: e) (MkState w r) (read_flat v "item" ke te false ++ [TAssign [XIndex (XVar "value") (XVar "key")] (XVar "item")])%list)
      | Failed => Stops WrongDocument
      | OutOfFuel => Stops MoreSteps end) by (unfold body, JsonRunProofs9.entry; now rewrite member_step by exact It).
    rewrite B.
    destruct (read_key l) as [key r| |]; cbn [rbind]; [|reflexivity|exact I].
    destruct (String.eqb key ""); [exists f; split; [reflexivity|]; split; [exact Gv|intros y _; reflexivity]|].
    assert (R : JsonCodeModel.read_value pkg v "item" ke te false = Done (read_flat v "item" ke te false, [])) by (unfold JsonCodeModel.read_value; now rewrite (element_not_map te K)).
    pose proof (HV n ke te false "item" [("key", RString key)] (f :: e) w r _ _ ltac:(lia) ltac:(lia) (element_acceptable v ke te G K) G (or_intror (conj eq_refl (conj (element_not_map te K) eq_refl))) R It) as P.
    unfold as_value in P. destruct (JsonModel.read_value o v m ke false r) as [y rest| |]; cbn [rbind] in P |- *; [| |exact I].
    - destruct P as (f' & Bk & Gi & Kp).
      assert (Vs : mget "value" f' = None) by (rewrite Kp; [reflexivity|cbn; intuition discriminate]).
      assert (Ks : mget "key" f' = Some (RString key)) by (rewrite Kp; [reflexivity|cbn; intuition discriminate]).
      assert (Mp : canonical (mset key (run_value v ke y) (map (fun p => (fst p, run_value v ke (snd p))) (canonical acc))) = map (fun p => (fst p, run_value v ke (snd p))) (canonical (mset key y acc))).
      { rewrite mset_map, canonical_map, canonical_set by exact N. reflexivity. }
      assert (Bl : leave (blk n ([("key", RString key)] :: f :: e) (MkState w r) (read_flat v "item" ke te false ++ [TAssign [XIndex (XVar "value") (XVar "key")] (XVar "item")])%list) =
        Next (mset "value" (shown_map v ke (mset key y acc)) f :: e) (MkState w rest)).
      { rewrite block_app, Bk. cbn [block JsonRunSpec.exec JsonRunSpec.eval lookup]. rewrite Gi. cbn [store_all store lookup]. rewrite Vs, Ks, Gv. unfold shown_map at 1. cbn [update]. rewrite Vs, Gv. cbn [continue leave tl].
        rewrite Mp. reflexivity. }
      rewrite Bl.
      specialize (HE n lim ke te (mset "value" (shown_map v ke (mset key y acc)) f) e (mset key y acc) rest w ltac:(lia) ltac:(lia) ltac:(lia) G K).
      cbv zeta in HE. fold body in HE.
      assert (It' : lookup (mset "value" (shown_map v ke (mset key y acc)) f :: e) "iterator" = Some RIterator) by (cbn [lookup] in *; rewrite mget_mset_other by discriminate; exact It).
      specialize (HE It' (mget_mset_same _ _ _) (nodup_mset _ _ _ N)).
      destruct (read_entries o v m ke (mset key y acc) rest) as [acc' r'| |]; [|exact HE|exact I].
      destruct HE as (f'' & Lp & Gv' & Kp'). exists f''. split; [exact Lp|]. split; [exact Gv'|]. intros z Z. rewrite Kp' by exact Z. now apply mget_mset_other.
    - unfold JsonRunProofs7.puts in P. rewrite block_app, P. reflexivity.
  Qed.

  (** * Functions *)

  Lemma read_struct_runs m n k t w l : object_runs m -> m <= n -> m <= limit -> mget k (v_types v) = Some t -> structural t ->
    match read_object o v m t (new_builder v t) l with
    | Ok b r => C (S n) (read_func t) [RIterator] (MkState w l) = Gives (run_value v k (VObject b)) (MkState w r)
    | Failed => C (S n) (read_func t) [RIterator] (MkState w l) = Ends WrongDocument
    | OutOfFuel => True
    end.
  Proof.
    intros HO L1 L2 G K. destruct (read_function pkg v fs CODE ONCE k t G K) as (cases & rs & E & Fn & _).
    pose proof (call_known o v fs structures limit ONCE n _ [RIterator] (MkState w l) Fn) as Q. cbn [fn_name] in Q. rewrite Q. clear Q. unfold run_function.
    cbn [fn_results fn_params filter map define_all define mset fst snd String.eqb negb fn_body]. rewrite block_cons. cbn [JsonRunSpec.exec JsonRunSpec.eval].
    rewrite (proj1 (DECL k t G K)). cbn [define_all define mset String.eqb Ascii.eqb Bool.eqb]. rewrite block_cons.
    assert (Sh : RStruct (("bitmap_", RBits 0) :: (if is_class t then [("id", RString ""); ("href", RString "")] else []) ++ map (fun a => (attribute_field a, run_value v (a_type a) (field_zero v (a_type a)))) (t_attrs t)) = shown t (new_builder v t)).
    { unfold shown, run_struct, new_builder. cbn [o_bits o_id o_href o_fields]. do 3 f_equal. clear. induction (t_attrs t) as [|a la IH]; [reflexivity|]. cbn. now rewrite IH. }
    rewrite Sh. change (exec n [[("iterator", RIterator); ("object", shown t (new_builder v t))]] (MkState w l) (member_cases (read_class t ++ cases))) with
      (loop limit (reader t (new_builder v t)) (MkState w l) (iteration n (read_class t ++ cases))).
    pose proof (HO n limit k t (new_builder v t) l w cases rs L1 L2 L2 G K E) as H.
    assert (F : full t (new_builder v t)) by (unfold full, new_builder; cbn [o_fields]; apply map_length). specialize (H F).
    destruct (read_object o v m t (new_builder v t) l) as [b r| |]; [| |exact I]; rewrite H; [|reflexivity].
    cbn [run_value]. rewrite G. reflexivity.
  Qed.
  Lemma read_list_runs m n k t ke w l : items_run m -> m <= n -> m <= limit -> mget k (v_types v) = Some t -> t_kind t = ListType -> plain v t -> t_element t = Some ke ->
    match read_items o v m ke [] l with
    | Ok items r => C (S n) (read_func t) [RIterator] (MkState w l) = Gives (run_value v k (VSlice items)) (MkState w r)
    | Failed => C (S n) (read_func t) [RIterator] (MkState w l) = Ends WrongDocument
    | OutOfFuel => True
    end.
  Proof.
    intros HI L1 L2 G K Pl El. assert (X : exists te, mget ke (v_types v) = Some te /\ In (t_kind te) element_kinds).
    { destruct Pl as (ke' & te & El' & Ge & Ki). rewrite El in El'. injection El' as EK; subst ke'. now exists te. }
    destruct X as (te & Ge & Ki). destruct (read_list_function pkg v fs PKG STD NAMED CODE ONCE k t ke te G K Pl El Ge) as (text & code & rs & (suffix & Tx) & R & Fn & _).
    assert (Tm : String.prefix "map[" text = false) by (rewrite Tx; reflexivity).
    set (body := step n (code ++ [TAssign [XVar "list"] (XAppend (XVar "list") (XVar "item"))])).
    pose proof (call_known o v fs structures limit ONCE n _ [RIterator] (MkState w l) Fn) as Q. cbn [fn_name] in Q. rewrite Q. clear Q. unfold run_function.
    cbn [fn_results fn_params filter map define_all define mset fst snd String.eqb negb fn_body]. rewrite block_cons. cbn [JsonRunSpec.exec JsonRunSpec.eval]. rewrite Tm. cbn [define_all define mset String.eqb Ascii.eqb Bool.eqb]. rewrite block_cons.
    change (exec n [[("iterator", RIterator); ("list", RSlice [])]] (MkState w l) (TWhile (read "ReadArray") (code ++ [TAssign [XVar "list"] (XAppend (XVar "list") (XVar "item"))]))) with
      (loop limit (items_frames v ke []) (MkState w l) body).
    pose proof (HI n limit ke te [] l w code rs L1 L2 L2 Ge Ki R) as H. cbv zeta in H. fold body in H.
    destruct (read_items o v m ke [] l) as [items r| |]; [| |exact I]; rewrite H; [|reflexivity].
    cbn [run_value]. rewrite G. unfold elem_key. rewrite El. reflexivity.
  Qed.
End Version.
