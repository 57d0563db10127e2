(** Proofs about the declarations of the package of a version. *)
From Coq Require Import Ascii String Bool Arith Lia Permutation List.
From Verif Require Import GoStrings GoStringsProofs GoMap GoMapProofs NamesModel NamesSpec NamesProofs ConceptsModel BindingModel
  BindingSpec BindingProofs GoNamesModel GoNamesSpec GoNamesProofs DeclsModel DeclsSpec DeclsProofs.
Import ListNotations.
Local Open Scope string_scope.

(** * Classes of names *)

Fixpoint str_rev (s : string) : string := match s with EmptyString => "" | String c r => str_rev r ++ String c "" end.
Lemma str_rev_app a b : str_rev (a ++ b) = str_rev b ++ str_rev a.
Proof. induction a as [|c a IH]; cbn [append str_rev]; [now rewrite sapp_nil_r|]. now rewrite IH, sapp_assoc. Qed.
Lemma str_rev_rev s : str_rev (str_rev s) = s.
Proof. induction s as [|c s IH]; [reflexivity|]. cbn [str_rev]. rewrite str_rev_app, IH. reflexivity. Qed.

Definition has_suffix (s x : string) : bool := has_prefix (str_rev s) (str_rev x).
Lemma has_suffix_spec s x : has_suffix s x = true <-> ends_with x s.
Proof.
  unfold has_suffix, ends_with. rewrite has_prefix_spec. split; intros (r & E).
  - exists (str_rev r). rewrite <- (str_rev_rev s), E, str_rev_app, str_rev_rev. reflexivity.
  - exists (str_rev r). rewrite E. apply str_rev_app.
Qed.

Lemma suffix_app a s x : String.length x <= String.length s -> has_suffix (a ++ s) x = has_suffix s x.
Proof.
  intros H. unfold has_suffix. rewrite str_rev_app.
  assert (L : String.length (str_rev x) <= String.length (str_rev s)).
  { assert (E : forall y, String.length (str_rev y) = String.length y).
    { induction y as [|c y IH]; [reflexivity|]. cbn [str_rev]. rewrite sapp_length, IH. cbn. lia. }
    now rewrite !E. }
  revert L. generalize (str_rev a) (str_rev s) (str_rev x). clear. intros a s. revert s.
  intros s x. revert s. induction x as [|c x IH]; intros [|b s] H; cbn in *; try reflexivity; try lia; [destruct a; reflexivity|].
  destruct (Ascii.eqb c b); [apply IH; lia|reflexivity].
Qed.

(** The class of a name: the position of its beginning or of its ending. *)
Fixpoint first_of (p : string -> bool) (n : nat) (l : list string) (d : nat) : nat :=
  match l with [] => d | x :: r => if p x then n else first_of p (S n) r d end.
Definition ending_class (l : list string) (s : string) : nat := first_of (has_suffix s) 1 l 0.
Definition class_of (s : string) : nat := first_of (has_prefix s) 4 reserved_beginnings (ending_class reserved_endings s).

Lemma first_of_none p n l d : (forall x, In x l -> p x = false) -> first_of p n l d = d.
Proof. revert n. induction l as [|x l IH]; intros n H; cbn; [reflexivity|]. rewrite (H x (or_introl eq_refl)). apply IH. intros. apply H. now right. Qed.

Lemma not_true_false b : b <> true -> b = false.
Proof. destruct b; congruence. Qed.

Lemma plain_class s : plain_go_name s -> class_of s = 0.
Proof.
  intros (_ & H1 & H2). unfold class_of, ending_class. rewrite !first_of_none; [reflexivity| |].
  - intros x Hx. apply not_true_false. rewrite has_suffix_spec. exact (H2 x Hx).
  - intros x Hx. apply not_true_false. rewrite has_prefix_spec. exact (H1 x Hx).
Qed.

(** A name that doesn't start with a reserved beginning, and something that starts with an upper case letter. *)
Definition capital_word (p : string) : bool := match p with String _ r => str_all is_lower r | EmptyString => false end.

Lemma prefix_extension p x s : capital_word p = true -> x <> "" -> exported s ->
  has_prefix x p = false -> has_prefix (x ++ s) p = false.
Proof.
  intros Hp Hx (c & r & -> & Hc). destruct p as [|k p]; [discriminate|]. destruct x as [|d x]; [contradiction|]. cbn [capital_word] in Hp.
  cbn [append has_prefix]. destruct (Ascii.eqb k d); [|reflexivity]. cbn [andb]. revert p Hp. clear Hx. induction x as [|e x IH]; intros p Hp H.
  - cbn [append]. destruct p as [|q p]; [discriminate|]. cbn [has_prefix]. cbn [str_all] in Hp. apply andb_true_iff in Hp.
    destruct (Ascii.eqb_spec q c) as [<-|]; [|reflexivity]. destruct Hp as [Hp _]. rewrite (upper_not_lower _ Hc) in Hp. discriminate.
  - cbn [append]. destruct p as [|q p]; [discriminate|]. cbn [has_prefix] in *. cbn [str_all] in Hp. apply andb_true_iff in Hp.
    destruct (Ascii.eqb q e); [|reflexivity]. cbn [andb] in *. apply IH; tauto.
Qed.

Lemma no_beginning x : plain_go_name x -> forall p, In p reserved_beginnings -> has_prefix x p = false.
Proof. intros (_ & H & _) p Hp. apply not_true_false. rewrite has_prefix_spec. exact (H p Hp). Qed.

Lemma extended_class x s : plain_go_name x -> exported s -> class_of (x ++ s) = ending_class reserved_endings (x ++ s).
Proof.
  intros H Hs. unfold class_of. apply first_of_none. intros p Hp. apply prefix_extension; [|exact (proj1 H)|exact Hs|exact (no_beginning x H p Hp)].
  revert p Hp. apply forallb_forall. reflexivity.
Qed.

Lemma class_list x : plain_go_name x -> class_of (x ++ "List") = 1.
Proof.
  intros H. rewrite extended_class by (auto; apply exportedb_spec; reflexivity). unfold ending_class, reserved_endings, first_of.
  rewrite suffix_app by (cbn; lia). reflexivity.
Qed.

Lemma class_kind x s : plain_go_name x -> exported s -> class_of (x ++ s ++ "Kind") = 2.
Proof.
  intros H Hs. rewrite extended_class; [|exact H|].
  - rewrite <- sapp_assoc. unfold ending_class, reserved_endings, first_of. rewrite !suffix_app by (cbn; lia). reflexivity.
  - destruct Hs as (c & r & -> & Hc). cbn [append]. now apply exported_head.
Qed.

Lemma class_kind0 x : plain_go_name x -> class_of (x ++ "Kind") = 2.
Proof.
  intros H. rewrite extended_class by (auto; apply exportedb_spec; reflexivity).
  unfold ending_class, reserved_endings, first_of. rewrite !suffix_app by (cbn; lia). reflexivity.
Qed.

Lemma suffix_builder a : has_suffix (a ++ "Builder") "List" = false /\ has_suffix (a ++ "Builder") "Kind" = false /\ has_suffix (a ++ "Builder") "Builder" = true.
Proof. rewrite !suffix_app by (cbn; lia). auto. Qed.

Lemma class_builder x : plain_go_name x -> class_of (x ++ "Builder") = 3.
Proof.
  intros H. rewrite extended_class by (auto; apply exportedb_spec; reflexivity). unfold ending_class, reserved_endings, first_of.
  destruct (suffix_builder x) as (-> & -> & ->). reflexivity.
Qed.
Lemma class_list_builder x : plain_go_name x -> class_of ((x ++ "List") ++ "Builder") = 3.
Proof.
  intros H. rewrite sapp_assoc. rewrite extended_class by (auto; apply exportedb_spec; reflexivity). rewrite <- sapp_assoc.
  unfold ending_class, reserved_endings, first_of. destruct (suffix_builder (x ++ "List")) as (-> & -> & ->). reflexivity.
Qed.

Lemma prefix_nil x : has_prefix x "" = true.
Proof. destruct x; reflexivity. Qed.
Ltac beginning := intros x; unfold class_of, reserved_beginnings; generalize (ending_class reserved_endings); intros d; cbn; rewrite ?prefix_nil; reflexivity.
Lemma class_new : forall x, class_of ("New" ++ x) = 4. Proof. beginning. Qed.
Lemma class_marshal : forall x, class_of ("Marshal" ++ x) = 5. Proof. beginning. Qed.
Lemma class_unmarshal : forall x, class_of ("Unmarshal" ++ x) = 6. Proof. beginning. Qed.
Lemma class_Write : forall x, class_of ("Write" ++ x) = 7. Proof. beginning. Qed.
Lemma class_Read : forall x, class_of ("Read" ++ x) = 8. Proof. beginning. Qed.
Lemma class_write : forall x, class_of ("write" ++ x) = 9. Proof. beginning. Qed.
Lemma class_read : forall x, class_of ("read" ++ x) = 10. Proof. beginning. Qed.

(** * Lists without repetitions *)

Lemma nodup_groups (f : string -> nat) (gs : list (list string)) : forall n,
  (forall i g, nth_error gs i = Some g -> NoDup g /\ Forall (fun x => f x = n + i) g) -> NoDup (concat gs).
Proof.
  induction gs as [|g gs IH]; intros n H; [constructor|]. cbn [concat]. apply nodup_app.
  destruct (H 0 g eq_refl) as [N C].
  assert (R : forall i g, nth_error gs i = Some g -> NoDup g /\ Forall (fun x => f x = S n + i) g).
  { intros i g' E. destruct (H (S i) g' E) as [A B]. split; [exact A|]. now rewrite Nat.add_succ_comm. }
  split; [exact N|]. split; [exact (IH (S n) R)|].
  intros x Hx F. apply in_concat in F. destruct F as (g' & Hg & F). apply In_nth_error in Hg. destruct Hg as (i & Hg).
  destruct (R i g' Hg) as [_ B]. rewrite Forall_forall in B, C. specialize (B x F). specialize (C x Hx). lia.
Qed.

Lemma nodup_append (s : string) l : NoDup l -> NoDup (map (fun x => x ++ s) l).
Proof. apply FinFun.Injective_map_NoDup. intros x y E. exact (sapp_inv_tail x y s E). Qed.
Lemma nodup_prepend (p : string) l : NoDup l -> NoDup (map (append p) l).
Proof. apply FinFun.Injective_map_NoDup. intros x y E. exact (sapp_inv_head p x y E). Qed.

Lemma nodup_suffixed s l m : NoDup l -> NoDup m -> (forall x, In x l -> ~ ends_with s x) -> NoDup (l ++ map (fun x => x ++ s) m).
Proof.
  intros A B C. apply nodup_app. split; [exact A|]. split; [exact (nodup_append s m B)|]. intros x Hx F. apply in_map_iff in F.
  destruct F as (y & <- & _). apply (C _ Hx). exists y. reflexivity.
Qed.

Lemma flat_split {A} (f g h : A -> list string) l : (forall a, Permutation (f a) (g a ++ h a)) ->
  Permutation (flat_map f l) (flat_map g l ++ flat_map h l).
Proof.
  intros H. induction l as [|a l IH]; [constructor|]. cbn [flat_map]. rewrite (H a), IH, <- !app_assoc. apply Permutation_app_head.
  rewrite !app_assoc. apply Permutation_app_tail. apply Permutation_app_comm.
Qed.

(** * The groups *)
Section Version.
  Variable v : version.
  Hypothesis H : compatible_names v.

  Definition struct_names : list string := map object_name (filter is_struct (types v)).
  Definition class_names : list string := map object_name (filter is_class (types v)).

  Lemma class_struct t : is_class t = true -> is_struct t = true.
  Proof. unfold is_class, is_struct. intros ->. reflexivity. Qed.
  Lemma enum_not_struct t : is_enum t = true -> is_struct t = false.
  Proof. unfold is_enum, is_struct. destruct (t_kind t); cbn; congruence. Qed.

  Lemma struct_chosen t : In t (types v) -> is_struct t = true -> In (object_name t) (chosen_names v).
  Proof.
    intros Ht S. unfold chosen_names. apply in_or_app. right. apply in_or_app. left. unfold chosen_type_names. apply in_flat_map. exists t. split; [exact Ht|].
    destruct (is_enum t) eqn:E; [left; reflexivity|]. rewrite S. left. reflexivity.
  Qed.

  Lemma struct_plain x : In x struct_names -> plain_go_name x.
  Proof.
    unfold struct_names. intros Hx. apply in_map_iff in Hx. destruct Hx as (t & <- & Ht). apply filter_In in Ht.
    pose proof (names_plain v H) as P. rewrite Forall_forall in P. apply P. apply struct_chosen; tauto.
  Qed.
  Lemma class_in_struct x : In x class_names -> In x struct_names.
  Proof.
    unfold class_names, struct_names. intros Hx. apply in_map_iff in Hx. destruct Hx as (t & <- & Ht). apply filter_In in Ht.
    apply in_map. apply filter_In. split; [tauto|]. apply class_struct; tauto.
  Qed.

  (** The structs are part of the chosen names, so their names are different. *)
  Lemma struct_sub : Permutation (chosen_type_names v)
    (struct_names ++ flat_map (fun t => if is_enum t then object_name t :: map (value_const t) (t_values t) else []) (types v)).
  Proof.
    unfold chosen_type_names, struct_names.
    assert (E : map object_name (filter is_struct (types v)) = flat_map (fun t => if is_struct t then [object_name t] else []) (types v)).
    { induction (types v) as [|t l IH]; [reflexivity|]. cbn [filter flat_map]. destruct (is_struct t); cbn [map app]; now rewrite IH. }
    rewrite E. apply flat_split. intros t. destruct (is_enum t) eqn:En.
    - rewrite (enum_not_struct t En). reflexivity.
    - rewrite app_nil_r. reflexivity.
  Qed.

  Lemma struct_nodup : NoDup struct_names.
  Proof.
    pose proof (names_differ v H) as N. unfold chosen_names in N. apply nodup_app in N. destruct N as (_ & N & _).
    apply nodup_app in N. destruct N as (N & _). apply (Permutation_NoDup struct_sub) in N. apply nodup_app in N. tauto.
  Qed.

  Lemma filter_class : class_names = map object_name (filter is_class (filter is_struct (types v))).
  Proof.
    unfold class_names. f_equal. induction (types v) as [|t l IH]; [reflexivity|]. cbn [filter].
    destruct (is_class t) eqn:C.
    - rewrite (class_struct t C). cbn [filter]. rewrite C. now f_equal.
    - destruct (is_struct t); cbn [filter]; [rewrite C|]; exact IH.
  Qed.

  Lemma class_nodup : NoDup class_names.
  Proof.
    rewrite filter_class. pose proof struct_nodup as N. unfold struct_names in N. revert N. generalize (filter is_struct (types v)).
    intros l. induction l as [|t l IH]; [auto|]. cbn [map filter]. intros N. inversion N as [|? ? A B]; subst.
    destruct (is_class t); [|auto]. cbn [map]. constructor; [|auto]. intros F. apply A. apply in_map_iff in F. destruct F as (u & E & F).
    apply filter_In in F. rewrite <- E. apply in_map. tauto.
  Qed.

  Lemma struct_no_ending x s : In x struct_names -> In s ["List"; "Kind"; "Builder"; "Link"; "Nil"] -> ~ ends_with s x.
  Proof.
    intros Hx Hs. destruct Hs as [<-|[<-|[<-|[<-|[<-|[]]]]]]; try (apply (struct_plain x Hx); cbn; tauto);
      unfold struct_names in Hx; apply in_map_iff in Hx; destruct Hx as (t & <- & Ht); apply filter_In in Ht;
      apply (structs_plain v H t); tauto.
  Qed.

  (** The names of the kinds, without the last word. *)
  Definition kind_names : list string :=
    (class_names ++ map (fun x => x ++ "Link")%string (class_names ++ map (fun x => x ++ "List")%string struct_names)
     ++ map (fun x => x ++ "Nil")%string (class_names ++ map (fun x => x ++ "List")%string struct_names) ++ map (fun x => x ++ "List")%string struct_names)%list.

  Lemma class_list_nodup : NoDup (class_names ++ map (fun x => x ++ "List") struct_names).
  Proof.
    apply nodup_suffixed; [exact class_nodup|exact struct_nodup|]. intros x Hx. apply struct_no_ending; [exact (class_in_struct x Hx)|cbn; tauto].
  Qed.

  Definition kind_class (s : string) : nat := ending_class ["Link"; "Nil"; "List"] s.

  Lemma kind_names_nodup : NoDup kind_names.
  Proof.
    assert (E : kind_names = concat [class_names; map (fun x => x ++ "Link") (class_names ++ map (fun x => x ++ "List") struct_names);
      map (fun x => x ++ "Nil") (class_names ++ map (fun x => x ++ "List") struct_names); map (fun x => x ++ "List") struct_names]).
    { unfold kind_names. cbn [concat]. now rewrite app_nil_r. }
    rewrite E. apply (nodup_groups kind_class _ 0). intros i g Hi.
    destruct i as [|[|[|[|i]]]]; cbn in Hi; [| | | |destruct i; discriminate]; injection Hi as <-.
    - split; [exact class_nodup|]. apply Forall_forall. intros x Hx. unfold kind_class, ending_class. apply first_of_none.
      intros s Hs. apply not_true_false. rewrite has_suffix_spec. apply struct_no_ending; [exact (class_in_struct x Hx)|].
      destruct Hs as [<-|[<-|[<-|[]]]]; cbn; tauto.
    - split; [apply nodup_append, class_list_nodup|]. apply Forall_forall. intros x Hx. apply in_map_iff in Hx. destruct Hx as (y & <- & _).
      unfold kind_class, ending_class, first_of. rewrite suffix_app by (cbn; lia). reflexivity.
    - split; [apply nodup_append, class_list_nodup|]. apply Forall_forall. intros x Hx. apply in_map_iff in Hx. destruct Hx as (y & <- & Hy).
      unfold kind_class, ending_class, first_of.
      assert (L : has_suffix (y ++ "Nil") "Link" = false).
      { unfold has_suffix. rewrite str_rev_app. reflexivity. }
      rewrite L, suffix_app by (cbn; lia). reflexivity.
    - split; [apply nodup_append, struct_nodup|]. apply Forall_forall. intros x Hx. apply in_map_iff in Hx. destruct Hx as (y & <- & _).
      unfold kind_class, ending_class, first_of. rewrite !suffix_app by (cbn; lia). reflexivity.
  Qed.

  Lemma kind_names_class : Forall (fun x => class_of x = 2) (map (fun x => x ++ "Kind") kind_names).
  Proof.
    apply Forall_forall. intros x Hx. apply in_map_iff in Hx. destruct Hx as (y & <- & Hy).
    assert (L : exported "Link") by (apply exportedb_spec; reflexivity). assert (N : exported "Nil") by (apply exportedb_spec; reflexivity).
    assert (I : exported "List") by (apply exportedb_spec; reflexivity).
    unfold kind_names in Hy. repeat (apply in_app_or in Hy; destruct Hy as [Hy|Hy]).
    - apply class_kind0. apply struct_plain. exact (class_in_struct y Hy).
    - apply in_map_iff in Hy. destruct Hy as (z & <- & Hz). apply in_app_or in Hz. destruct Hz as [Hz|Hz].
      + rewrite sapp_assoc. apply class_kind; [apply struct_plain; exact (class_in_struct z Hz)|exact L].
      + apply in_map_iff in Hz. destruct Hz as (w & <- & Hw). rewrite !sapp_assoc. rewrite <- (sapp_assoc "List" "Link" "Kind").
        apply class_kind; [exact (struct_plain w Hw)|apply exportedb_spec; reflexivity].
    - apply in_map_iff in Hy. destruct Hy as (z & <- & Hz). apply in_app_or in Hz. destruct Hz as [Hz|Hz].
      + rewrite sapp_assoc. apply class_kind; [apply struct_plain; exact (class_in_struct z Hz)|exact N].
      + apply in_map_iff in Hz. destruct Hz as (w & <- & Hw). rewrite !sapp_assoc. rewrite <- (sapp_assoc "List" "Nil" "Kind").
        apply class_kind; [exact (struct_plain w Hw)|apply exportedb_spec; reflexivity].
    - apply in_map_iff in Hy. destruct Hy as (w & <- & Hw). rewrite sapp_assoc. apply class_kind; [exact (struct_plain w Hw)|exact I].
  Qed.

  (** The names of what the builders build. *)
  Definition built_names : list string := flat_map (fun t => match built_name v t with Some n => [n] | None => [] end) (types v).

  Lemma built_split : Permutation built_names (struct_names ++ map (fun x => x ++ "List") (list_element_names v)).
  Proof.
    unfold built_names, struct_names, list_element_names.
    assert (E : map object_name (filter is_struct (types v)) = flat_map (fun t => if is_struct t then [object_name t] else []) (types v)).
    { induction (types v) as [|t l IH]; [reflexivity|]. cbn [filter flat_map]. destruct (is_struct t); cbn [map app]; now rewrite IH. }
    rewrite E.
    assert (M : forall (f : typ -> list string) l, map (fun x => x ++ "List") (flat_map f l) = flat_map (fun t => map (fun x => x ++ "List") (f t)) l).
    { intros f l. induction l as [|t l IH]; [reflexivity|]. cbn [flat_map]. now rewrite map_app, IH. }
    rewrite M. apply flat_split. intros t. unfold built_name, list_name. destruct (is_struct t); [reflexivity|].
    destruct (is_list t); [|reflexivity]. destruct (t_element t) as [e|]; [|reflexivity]. destruct (type_at e v) as [te|]; [|reflexivity].
    destruct (is_struct te); reflexivity.
  Qed.

  Lemma element_plain x : In x (list_element_names v) -> In x struct_names.
  Proof.
    unfold list_element_names, struct_names. intros Hx. apply in_flat_map in Hx. destruct Hx as (t & Ht & Hx).
    destruct (is_struct t); [destruct Hx|]. destruct (is_list t); [|destruct Hx]. destruct (t_element t) as [e|]; [|destruct Hx].
    destruct (type_at e v) as [te|] eqn:E; [|destruct Hx]. destruct (is_struct te) eqn:S; [|destruct Hx]. destruct Hx as [<-|[]].
    apply in_map. apply filter_In. split; [|exact S]. unfold types. apply sort_in. unfold type_at in E. apply mget_in in E.
    apply in_map_iff. exists (e, te). auto.
  Qed.

  Lemma built_nodup : NoDup built_names.
  Proof.
    apply (Permutation_NoDup (Permutation_sym built_split)). apply nodup_suffixed; [exact struct_nodup|exact (elements_differ v H)|].
    intros x Hx. apply struct_no_ending; [exact Hx|cbn; tauto].
  Qed.

  Lemma built_class : Forall (fun x => class_of x = 3) (map (fun x => x ++ "Builder") built_names).
  Proof.
    apply Forall_forall. intros x Hx. apply in_map_iff in Hx. destruct Hx as (y & <- & Hy).
    apply (Permutation_in _ built_split) in Hy. apply in_app_or in Hy. destruct Hy as [Hy|Hy].
    - apply class_builder. exact (struct_plain y Hy).
    - apply in_map_iff in Hy. destruct Hy as (z & <- & Hz). apply class_list_builder. apply struct_plain. exact (element_plain z Hz).
  Qed.

  (** The names of the clients. *)
  Definition client_names : list string := map client_name (resources v).

  Lemma clients_split : Permutation (chosen_client_names v) (client_names ++ flat_map (fun r =>
     (if find_method nGet r then [poll_name r ++ "Request"; poll_name r ++ "Response"]%string else [])
     ++ flat_map (fun m => [exchange_name r m ++ "Request"; exchange_name r m ++ "Response"]%string) (r_methods r))%list (resources v)).
  Proof.
    unfold chosen_client_names, client_names.
    assert (E : map client_name (resources v) = flat_map (fun r => [client_name r]) (resources v)).
    { induction (resources v) as [|r l IH]; [reflexivity|]. cbn [map flat_map app]. now rewrite IH. }
    rewrite E. apply flat_split. intros r. reflexivity.
  Qed.

  Lemma clients_nodup : NoDup client_names.
  Proof.
    pose proof (names_differ v H) as N. unfold chosen_names in N. apply nodup_app in N. destruct N as (_ & N & _).
    apply nodup_app in N. destruct N as (_ & N & _). apply nodup_app in N. destruct N as (N & _ & _).
    apply (Permutation_NoDup clients_split) in N. apply nodup_app in N. tauto.
  Qed.

  Lemma client_suffix r : has_suffix (client_name r) "Client" = true.
  Proof. unfold client_name. rewrite suffix_app by (cbn; lia). reflexivity. Qed.

  Lemma new_nodup : NoDup (built_names ++ client_names).
  Proof.
    apply nodup_app. split; [exact built_nodup|]. split; [exact clients_nodup|]. intros x Hx F.
    apply (Permutation_in _ built_split) in Hx. apply in_app_or in Hx. destruct Hx as [Hx|Hx].
    - pose proof (names_differ v H) as N. unfold chosen_names in N. apply nodup_app in N. destruct N as (_ & N & _).
      apply nodup_app in N. destruct N as (_ & _ & N). apply (N x).
      + apply (Permutation_in _ (Permutation_sym struct_sub)). apply in_or_app. left. exact Hx.
      + apply in_or_app. left. apply (Permutation_in _ (Permutation_sym clients_split)). apply in_or_app. left. exact F.
    - apply in_map_iff in Hx. destruct Hx as (y & <- & _). unfold client_names in F. apply in_map_iff in F. destruct F as (r & E & _).
      pose proof (client_suffix r) as S. rewrite E in S. unfold has_suffix in S. rewrite str_rev_app in S. discriminate S.
  Qed.

  (** The functions. *)
  Lemma keyword_short s : In s go_keywords -> exported s -> False.
  Proof.
    intros Hs (c & r & -> & Hc). cbn in Hs.
    repeat (destruct Hs as [Hs|Hs]; [injection Hs as <- <-; discriminate Hc|]). destruct Hs.
  Qed.

  Lemma public_prefixed p n : (p = nWrite \/ p = nRead) -> go_public (cat [p; n]) = camel p ++ camel n.
  Proof.
    intros Hp. rewrite go_public_camel, cat_camel. cbn [map str_join fold_right].
    assert (E : exported (camel p)) by (destruct Hp as [->| ->]; apply exportedb_spec; vm_compute; reflexivity).
    assert (N : camel p <> "") by (destruct Hp as [->| ->]; vm_compute; discriminate).
    rewrite sapp_nil_r. apply avoid_other. intros F. apply (keyword_short _ F). apply exported_prefix; [exact N|exact E].
  Qed.

  Lemma private_prefixed p q ns : n_words p = [q] -> (str_lower (w_text q) = "write" \/ str_lower (w_text q) = "read") ->
    go_private (cat (p :: ns)) = str_lower (w_text q) ++ camel (cat ns).
  Proof.
    intros Hp Hq. unfold go_private. rewrite cat_words. cbn [flat_map]. rewrite Hp. cbn [app].
    replace (str_join "" (str_lower (w_text q) :: map capitalize (flat_map n_words ns))) with (str_lower (w_text q) ++ camel (cat ns)).
    - apply avoid_other. destruct Hq as [-> | ->]; cbn; intuition discriminate.
    - unfold camel, capitalized_joined. rewrite cat_words, !str_join_empty_sep. reflexivity.
  Qed.

  Lemma write_word : exists q, n_words nWrite = [q] /\ str_lower (w_text q) = "write".
  Proof. eexists. split; vm_compute; reflexivity. Qed.
  Lemma read_word : exists q, n_words nRead = [q] /\ str_lower (w_text q) = "read".
  Proof. eexists. split; vm_compute; reflexivity. Qed.

  Definition pair_plain (r : resource) (m : method) : string := (if is_root r then "" else camel (r_name r)) ++ camel (m_name m).

  Lemma write_request_eq r m : write_request_func (is_root r) r m = "write" ++ pair_plain r m ++ "Request".
  Proof.
    unfold write_request_func. destruct write_word as (q & Hq & L). cbn [app].
    rewrite (private_prefixed nWrite q _ Hq) by (left; exact L). rewrite L, cat_camel, map_app, fold_right_app. unfold pair_plain.
    replace (camel nRequest) with "Request" by (vm_compute; reflexivity).
    destruct (is_root r); cbn [map fold_right]; rewrite ?sapp_nil_r, ?sapp_assoc; [|]; change (camel nRequest) with (camel nRequest);
      replace (camel nRequest) with "Request" by (vm_compute; reflexivity); reflexivity.
  Qed.
  Lemma read_response_eq r m : read_response_func (is_root r) r m = "read" ++ pair_plain r m ++ "Response".
  Proof.
    unfold read_response_func. destruct read_word as (q & Hq & L). cbn [app].
    rewrite (private_prefixed nRead q _ Hq) by (right; exact L). rewrite L, cat_camel, map_app, fold_right_app. unfold pair_plain.
    destruct (is_root r); cbn [map fold_right]; rewrite ?sapp_nil_r, ?sapp_assoc;
      replace (camel nResponse) with "Response" by (vm_compute; reflexivity); reflexivity.
  Qed.

  (** * All of them *)
  Definition cnt (l : list string) (x : string) : nat := count_occ string_dec l x.
  Lemma cnt_nil x : cnt [] x = 0. Proof. reflexivity. Qed.
  Lemma cnt_app l m x : cnt (l ++ m) x = cnt l x + cnt m x. Proof. apply count_occ_app. Qed.
  Lemma cnt_cons a b l x : cnt (a :: b :: l) x = cnt [a] x + cnt (b :: l) x.
  Proof. change (a :: b :: l) with ([a] ++ (b :: l))%list. apply cnt_app. Qed.
  Lemma perm_cnt l m : (forall x, cnt l x = cnt m x) -> Permutation l m.
  Proof. intros E. apply (Permutation_count_occ string_dec). exact E. Qed.
  Lemma cnt_cons' a l x : cnt (a :: l) x = cnt [a] x + cnt l x.
  Proof. change (a :: l) with ([a] ++ l)%list. apply cnt_app. Qed.

  Definition groups : list (list string) :=
    [chosen_names v; map (fun x => x ++ "List") struct_names; map (fun x => x ++ "Kind") kind_names;
     map (fun x => x ++ "Builder") built_names; map (append "New") (built_names ++ client_names);
     map (append "Marshal") ("Metadata" :: json_type_names v); map (append "Unmarshal") ("Metadata" :: json_type_names v);
     map (append "Write") (json_plain_names v); map (append "Read") (json_plain_names v);
     map (append "write") ("Metadata" :: map (fun x => x ++ "Request") (exchange_plain_names v));
     map (append "read") ("Metadata" :: map (fun x => x ++ "Response") (exchange_plain_names v))].

  Ltac counts := repeat match goal with |- context [cnt (?a :: ?l) ?x] =>
    lazymatch l with [] => fail | _ => rewrite (cnt_cons' a l x) end end.

  Lemma types_perm x : cnt (types_decls v) x = cnt ["Metadata"] x + cnt (chosen_type_names v) x
    + cnt (map (fun x => x ++ "List") struct_names) x + cnt (map (fun x => x ++ "Kind") kind_names) x.
  Proof.
    unfold types_decls, chosen_type_names, kind_names, struct_names, class_names. rewrite cnt_cons'. rewrite !map_app, !cnt_app.
    rewrite <- !Nat.add_assoc. f_equal. clear H. induction (types v) as [|t l IH]; [reflexivity|]. cbn [flat_map filter]. rewrite !cnt_app, IH. clear IH.
    destruct (is_enum t) eqn:E; [|destruct (is_class t) eqn:C; [|destruct (is_struct t) eqn:S]].
    - rewrite (enum_not_struct t E). assert (C : is_class t = false) by (destruct (is_class t) eqn:C; [apply class_struct in C; rewrite (enum_not_struct t E) in C; discriminate|reflexivity]).
      rewrite C. lia.
    - rewrite (class_struct t C). cbn [map app]. rewrite ?map_app. cbn [map]. rewrite ?cnt_app. counts.
      unfold list_name. rewrite !sapp_assoc. cbn [append]. lia.
    - cbn [map app]. rewrite ?map_app. cbn [map]. rewrite ?cnt_app. counts.
      unfold list_name. rewrite !sapp_assoc. cbn [append]. lia.
    - reflexivity.
  Qed.

  Lemma builders_perm x : cnt (builders_decls v) x = cnt (map (fun x => x ++ "Builder") built_names) x + cnt (map (append "New") built_names) x.
  Proof.
    unfold builders_decls, built_names. generalize (types v). intros l. induction l as [|t l IH]; [reflexivity|].
    cbn [flat_map]. rewrite !map_app, !cnt_app, IH. destruct (built_name v t) as [n|]; cbn [map]; counts; rewrite ?cnt_nil; lia.
  Qed.

  Lemma json_perm x : cnt (json_decls v) x =
    cnt (map (append "Marshal") ("Metadata" :: json_type_names v)) x + cnt (map (append "Unmarshal") ("Metadata" :: json_type_names v)) x
    + cnt (map (append "Write") (json_plain_names v)) x + cnt (map (append "Read") (json_plain_names v)) x
    + cnt (map (append "write") ("Metadata" :: map (fun x => x ++ "Request") (exchange_plain_names v))) x
    + cnt (map (append "read") ("Metadata" :: map (fun x => x ++ "Response") (exchange_plain_names v))) x.
  Proof.
    unfold json_decls. rewrite !cnt_app.
    assert (A : cnt (flat_map json_type_decls (filter (has_json v) (types v))) x =
      cnt (map (append "Marshal") (json_type_names v)) x + cnt (map (append "Unmarshal") (json_type_names v)) x
      + cnt (map (append "Write") (json_plain_names v)) x + cnt (map (append "Read") (json_plain_names v)) x).
    { unfold json_type_names, json_plain_names. generalize (filter (has_json v) (types v)). intros l. induction l as [|t l IH]; [reflexivity|].
      cbn [flat_map map]. rewrite cnt_app, IH. unfold json_type_decls.
      rewrite !(public_prefixed) by tauto. replace (camel nWrite) with "Write" by (vm_compute; reflexivity).
      replace (camel nRead) with "Read" by (vm_compute; reflexivity). counts. lia. }
    assert (B : cnt (flat_map (fun r => flat_map (fun m => [write_request_func (is_root r) r m; read_response_func (is_root r) r m]) (r_methods r)) (resources v)) x =
      cnt (map (append "write") (map (fun x => x ++ "Request") (exchange_plain_names v))) x
      + cnt (map (append "read") (map (fun x => x ++ "Response") (exchange_plain_names v))) x).
    { unfold exchange_plain_names. clear A. induction (resources v) as [|r l IH]; [reflexivity|]. cbn [flat_map]. rewrite !map_app, !cnt_app, IH.
      assert (M : cnt (flat_map (fun m => [write_request_func (is_root r) r m; read_response_func (is_root r) r m]) (r_methods r)) x =
        cnt (map (append "write") (map (fun x => x ++ "Request") (map (pair_plain r) (r_methods r)))) x
        + cnt (map (append "read") (map (fun x => x ++ "Response") (map (pair_plain r) (r_methods r)))) x).
      { induction (r_methods r) as [|m ms IHm]; [reflexivity|]. cbn [flat_map map]. rewrite cnt_app, IHm, write_request_eq, read_response_eq. counts. lia. }
      rewrite M. unfold pair_plain. lia. }
    rewrite A, B. unfold json_metadata_decls. cbn [map]. counts. cbn [append]. lia.
  Qed.

  Lemma clients_perm x : cnt (clients_decls v) x = cnt ["MetadataRequest"] x + cnt ["MetadataResponse"] x + cnt (chosen_client_names v) x
    + cnt (map (append "New") client_names) x.
  Proof.
    unfold clients_decls, chosen_client_names, client_names. rewrite cnt_app. counts. rewrite <- !Nat.add_assoc. do 2 f_equal.
    clear H. induction (resources v) as [|r l IH]; [reflexivity|]. cbn [flat_map map]. rewrite !cnt_app, IH. cbn [app]. counts. rewrite !cnt_app. destruct (find_method nGet r); lia.
  Qed.

  Lemma groups_perm : Permutation (version_decls v) (concat groups).
  Proof.
    apply perm_cnt. intros x. unfold version_decls. rewrite !cnt_app, types_perm, builders_perm, json_perm, clients_perm.
    unfold groups. cbn [concat]. rewrite !cnt_app, cnt_nil, !map_app, !cnt_app. unfold chosen_names. rewrite !cnt_app. counts. unfold errors_decls, openapi_decls. lia.
  Qed.

  Lemma forall_prefixed p n l : (forall x, class_of (p ++ x) = n) -> Forall (fun x => class_of x = n) (map (append p) l).
  Proof. intros E. apply Forall_forall. intros x Hx. apply in_map_iff in Hx. destruct Hx as (y & <- & _). apply E. Qed.

  Lemma metadata_first s l : has_suffix "Metadata" s = false -> NoDup l -> NoDup ("Metadata" :: map (fun x => x ++ s) l).
  Proof.
    intros E N. constructor; [|exact (nodup_append s l N)]. intros F. apply in_map_iff in F. destruct F as (y & F & _).
    assert (T : has_suffix "Metadata" s = true) by (apply has_suffix_spec; exists y; now symmetry). congruence.
  Qed.

  Lemma declarations_nodup : NoDup (version_decls v).
  Proof.
    apply (Permutation_NoDup (Permutation_sym groups_perm)). apply (nodup_groups class_of groups 0). intros i g Hi.
    destruct (json_differ v H) as [J1 J2].
    destruct i as [|[|[|[|[|[|[|[|[|[|[|i]]]]]]]]]]]; [| | | | | | | | | | |destruct i; discriminate Hi];
      cbn [groups nth_error] in Hi; injection Hi as <-.
    - split; [exact (names_differ v H)|]. apply Forall_forall. intros x Hx. apply plain_class. pose proof (names_plain v H) as P. rewrite Forall_forall in P. exact (P x Hx).
    - split; [apply nodup_append, struct_nodup|]. apply Forall_forall. intros x Hx. apply in_map_iff in Hx. destruct Hx as (y & <- & Hy).
      apply class_list. exact (struct_plain y Hy).
    - split; [apply nodup_append, kind_names_nodup|exact kind_names_class].
    - split; [apply nodup_append, built_nodup|exact built_class].
    - split; [exact (nodup_prepend "New" _ new_nodup)|exact (forall_prefixed "New" _ _ class_new)].
    - split; [exact (nodup_prepend "Marshal" _ J1)|exact (forall_prefixed "Marshal" _ ("Metadata" :: json_type_names v) class_marshal)].
    - split; [exact (nodup_prepend "Unmarshal" _ J1)|exact (forall_prefixed "Unmarshal" _ ("Metadata" :: json_type_names v) class_unmarshal)].
    - split; [exact (nodup_prepend "Write" _ J2)|exact (forall_prefixed "Write" _ _ class_Write)].
    - split; [exact (nodup_prepend "Read" _ J2)|exact (forall_prefixed "Read" _ _ class_Read)].
    - split; [exact (nodup_prepend "write" _ (metadata_first "Request" _ eq_refl (exchanges_differ v H)))|exact (forall_prefixed "write" _ ("Metadata" :: map (fun x => x ++ "Request") (exchange_plain_names v)) class_write)].
    - split; [exact (nodup_prepend "read" _ (metadata_first "Response" _ eq_refl (exchanges_differ v H)))|exact (forall_prefixed "read" _ ("Metadata" :: map (fun x => x ++ "Response") (exchange_plain_names v)) class_read)].
  Qed.
End Version.
