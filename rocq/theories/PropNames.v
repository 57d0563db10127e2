(** Property theorems about names (C01 - C06). *)
From Coq Require Import Ascii String Bool Arith ZArith List.
From Verif Require Import GoStrings NamesModel NamesSpec NamesProofs.
Import ListNotations.
Local Open Scope string_scope.

(** C01 *)
Theorem C01_compare_lexicographic : forall a b : name,
  (name_compare a b = (-1)%Z <-> words_lt (texts a) (texts b)) /\
  (name_compare a b = 0%Z <-> texts a = texts b) /\
  (name_compare a b = 1%Z <-> words_lt (texts b) (texts a)).
Proof. exact name_compare_lex. Qed.
Print Assumptions C01_compare_lexicographic.

Theorem C01_compare_antisymmetric : forall a b : name,
  name_compare a b = (- name_compare b a)%Z.
Proof. exact name_compare_opp. Qed.
Print Assumptions C01_compare_antisymmetric.

Theorem C01_less_strict_total_order :
  (forall a, name_less a a = false) /\
  (forall a b c, name_less a b = true -> name_less b c = true -> name_less a c = true) /\
  (forall a b, name_less a b = true \/ texts a = texts b \/ name_less b a = true) /\
  (forall a b, name_less a b = true -> name_less b a = false).
Proof. exact name_less_order. Qed.
Print Assumptions C01_less_strict_total_order.

Example C01_nonvacuous :
  name_less (parse_using_case "CloudProvider") (parse_using_case "CloudRegion") = true /\
  name_less (parse_using_case "CloudRegion") (parse_using_case "Cluster") = true /\
  name_less (parse_using_case "Cloud") (parse_using_case "CloudProvider") = true.
Proof. vm_compute. auto. Qed.

(** C02 *)
Theorem C02_equals_equivalence :
  (forall a, name_equals a a = true) /\
  (forall a b, name_equals a b = name_equals b a) /\
  (forall a b c, name_equals a b = true -> name_equals b c = true -> name_equals a c = true) /\
  (forall a b, name_equals None (Some a) = false /\ name_equals (Some b) None = false).
Proof. exact name_equals_equivalence. Qed.
Print Assumptions C02_equals_equivalence.

Theorem C02_equals_iff_same_words : forall a b : name,
  name_equals (Some a) (Some b) = true <-> n_words a = n_words b.
Proof. exact name_equals_words. Qed.
Print Assumptions C02_equals_iff_same_words.

Theorem C02_equals_fixes_renderings : forall a b : name,
  name_equals (Some a) (Some b) = true ->
  name_compare a b = 0%Z /\ name_string a = name_string b /\
  snake a = snake b /\ camel a = camel b /\
  (forall sep, lower_joined sep a = lower_joined sep b /\
               upper_joined sep a = upper_joined sep b /\
               capitalized_joined sep a = capitalized_joined sep b).
Proof. exact name_equals_renderings. Qed.
Print Assumptions C02_equals_fixes_renderings.

(** The original text isn't part of the comparison: different texts, equal names. *)
Example C02_nonvacuous :
  name_equals (Some (parse_using_case "MyFruit")) (Some (parse_using_separator "my_fruit" "_")) = true.
Proof. reflexivity. Qed.

(** Names that compare as 0 don't have to be equal: the initialism flag isn't compared. *)
Theorem C02_compare_zero_implies_equal_refuted : exists a b,
  name_compare a b = 0%Z /\ name_equals (Some a) (Some b) = false /\ camel a <> camel b.
Proof.
  exists (new_name [new_initialism "id"]), (new_name [new_word "id"]).
  vm_compute. repeat split. discriminate.
Qed.
Print Assumptions C02_compare_zero_implies_equal_refuted.

(** C03 *)
Theorem C03_join_after_split : forall (t : string) (sep : ascii),
  str_join (String sep "") (texts (parse_using_separator t sep)) = t.
Proof. exact separator_any_join. Qed.
Print Assumptions C03_join_after_split.

Theorem C03_split_words : forall (t : string) (sep : ascii),
  Forall (fun w => w_init w = false /\ free_of sep (w_text w)) (n_words (parse_using_separator t sep)).
Proof. exact separator_words_spec. Qed.
Print Assumptions C03_split_words.

Theorem C03_split_after_join : forall ws : list word,
  ws <> [] ->
  Forall (fun w => w_init w = false /\ free_of "_" (w_text w)) ws ->
  n_words (parse_using_separator (name_string (new_name ws)) "_") = ws.
Proof. exact separator_split_join_spec. Qed.
Print Assumptions C03_split_after_join.

Theorem C03_directory_names_survive : forall t : string,
  name_string (parse_using_separator t "_") = t.
Proof. exact separator_join_split. Qed.
Print Assumptions C03_directory_names_survive.

Theorem C03_directory_names_distinct : forall t u : string,
  name_string (parse_using_separator t "_") = name_string (parse_using_separator u "_") -> t = u.
Proof. exact separator_key_injective. Qed.
Print Assumptions C03_directory_names_distinct.

Example C03_nonvacuous :
  n_words (parse_using_separator "clusters_mgmt__v1" "_") =
    [new_word "clusters"; new_word "mgmt"; new_word ""; new_word "v1"] /\
  (let ws := [new_word "clusters"; new_word "mgmt"] in
   ws <> [] /\ Forall (fun w => w_init w = false /\ free_of "_" (w_text w)) ws).
Proof.
  split; [reflexivity|]. split; [discriminate|].
  repeat constructor; unfold free_of; simpl; intuition discriminate.
Qed.

(** C04 *)
Theorem C04_parse_camel : forall ws : list word,
  ws <> [] -> camel_words ws ->
  n_words (parse_using_case (camel (new_name ws))) = ws.
Proof. exact parse_camel. Qed.
Print Assumptions C04_parse_camel.

Example C04_nonvacuous :
  let ws := [new_word "my"; new_initialism "AWS"; new_word "account"; new_initialism "IDs";
             new_word "list"; new_initialism "CPU"] in
  camel_words ws /\ camel (new_name ws) = "MyAWSAccountIDsListCPU".
Proof.
  split; [|reflexivity].
  apply cw_ordinary.
  { split; [reflexivity|]. exists "m"%char, "y". repeat split; discriminate. }
  apply cw_singular.
  { repeat split; simpl; auto with arith. }
  { split; [reflexivity|]. exists "a"%char, "ccount". repeat split; discriminate. }
  { discriminate. }
  apply cw_plural.
  { split; [reflexivity|]. exists "ID". repeat split; simpl; auto with arith. }
  apply cw_ordinary.
  { split; [reflexivity|]. exists "l"%char, "ist". repeat split; discriminate. }
  apply cw_last. repeat split; simpl; auto with arith.
Qed.

(** The conditions are needed: two adjacent initialisms are merged, and an initialism followed by a
    two letter word that ends in s is read as a plural. *)
Theorem C04_adjacent_initialisms_refuted : exists ws,
  Forall (fun w => ordinary w \/ singular_initialism w) ws /\ ws <> [] /\
  n_words (parse_using_case (camel (new_name ws))) <> ws.
Proof.
  exists [new_initialism "AWS"; new_initialism "ID"]. split; [|split; [discriminate|]].
  - repeat constructor; right; repeat split; simpl; auto with arith.
  - vm_compute. discriminate.
Qed.
Print Assumptions C04_adjacent_initialisms_refuted.

Theorem C04_short_word_refuted : exists ws,
  Forall (fun w => ordinary w \/ singular_initialism w) ws /\ ws <> [] /\
  n_words (parse_using_case (camel (new_name ws))) <> ws.
Proof.
  exists [new_initialism "AWS"; new_word "is"]. split; [|split; [discriminate|]].
  - constructor; [right; repeat split; simpl; auto with arith|].
    constructor; [left|constructor]. split; [reflexivity|].
    exists "i"%char, "s". repeat split; discriminate.
  - vm_compute. discriminate.
Qed.
Print Assumptions C04_short_word_refuted.

(** C05 *)
Theorem C05_camel_of_parse : forall t : string,
  camel_identifier t -> camel (parse_using_case t) = t.
Proof. exact camel_parse. Qed.
Print Assumptions C05_camel_of_parse.

Theorem C05_parse_injective : forall t u : string,
  camel_identifier t -> camel_identifier u ->
  n_words (parse_using_case t) = n_words (parse_using_case u) -> t = u.
Proof. exact parse_injective. Qed.
Print Assumptions C05_parse_injective.

(** The lookup key used by the maps of services, versions and so on distinguishes identifiers. *)
Theorem C05_lookup_key_injective : forall t u : string,
  camel_identifier t -> camel_identifier u ->
  name_string (parse_using_case t) = name_string (parse_using_case u) -> t = u.
Proof. exact lookup_key_injective. Qed.
Print Assumptions C05_lookup_key_injective.

(** And so does the comparison used for sorting. *)
Theorem C05_compare_distinguishes : forall t u : string,
  camel_identifier t -> camel_identifier u ->
  name_compare (parse_using_case t) (parse_using_case u) = 0%Z -> t = u.
Proof. exact compare_identifiers. Qed.
Print Assumptions C05_compare_distinguishes.

Example C05_nonvacuous :
  camel_identifier "AWSAccountIDs2X" /\
  texts (parse_using_case "AWSAccountIDs2X") = ["AWS"; "account"; "IDs"; "2X"].
Proof.
  split; [|reflexivity]. exists "A"%char, "WSAccountIDs2X". repeat split.
Qed.

(** Identifiers accepted by the grammar that start with a lower case letter break the property. *)
Theorem C05_lower_case_identifier_refuted : exists t,
  str_all (fun c => is_lower c || is_upper c) t = true /\
  texts (parse_using_case t) = ["myname"; "name"].
Proof. exists "myName". split; reflexivity. Qed.
Print Assumptions C05_lower_case_identifier_refuted.

(** And the wire name (snake case) doesn't distinguish identifiers. *)
Theorem C05_snake_injective_refuted : exists t u,
  camel_identifier t /\ camel_identifier u /\ t <> u /\
  snake (parse_using_case t) = snake (parse_using_case u).
Proof.
  exists "MyID", "MyId". repeat split; try discriminate.
  - exists "M"%char, "yID". repeat split.
  - exists "M"%char, "yId". repeat split.
Qed.
Print Assumptions C05_snake_injective_refuted.

(** C06 *)
Theorem C06_cat_words : forall ns : list name, n_words (cat ns) = concat (map n_words ns).
Proof. intros ns. rewrite <- flat_map_concat_map. exact (cat_words ns). Qed.
Print Assumptions C06_cat_words.

Theorem C06_cat_associative : forall a b c : name,
  n_words (cat [cat [a; b]; c]) = n_words (cat [a; cat [b; c]]) /\
  n_words (cat [a; b; c]) = n_words (cat [a; cat [b; c]]).
Proof. exact cat_assoc. Qed.
Print Assumptions C06_cat_associative.

Theorem C06_cat_unit : forall a : name,
  n_words (cat []) = [] /\ n_words (cat [a; cat []]) = n_words a /\
  n_words (cat [cat []; a]) = n_words a.
Proof. exact cat_unit. Qed.
Print Assumptions C06_cat_unit.

Theorem C06_cat_camel : forall ns : list name,
  camel (cat ns) = fold_right append "" (map camel ns).
Proof. exact cat_camel. Qed.
Print Assumptions C06_cat_camel.

Theorem C06_cat_snake : forall ns : list name,
  Forall (fun n => n_words n <> []) ns ->
  snake (cat ns) = str_join "_" (map snake ns).
Proof. exact cat_snake. Qed.
Print Assumptions C06_cat_snake.

Theorem C06_append_insert : forall (n : name) (ws : list word),
  texts (name_append n ws) = (texts n ++ map w_text ws)%list /\
  texts (name_insert n ws) = (map w_text ws ++ texts n)%list /\
  camel (name_append n ws) = camel n ++ camel (new_name ws) /\
  camel (name_insert n ws) = camel (new_name ws) ++ camel n.
Proof. exact append_insert_words. Qed.
Print Assumptions C06_append_insert.

Example C06_nonvacuous :
  let ns := [parse_using_case "ClusterID"; parse_using_case "List"] in
  Forall (fun n => n_words n <> []) ns /\
  camel (cat ns) = "ClusterIDList" /\ snake (cat ns) = "cluster_id_list".
Proof. repeat split. repeat constructor; discriminate. Qed.
