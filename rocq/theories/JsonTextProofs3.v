(** Proofs about JSON texts: the documents. *)
From Coq Require Import Ascii String Bool Arith ZArith NArith Lia List.
From Verif Require Import GoStrings GoStringsProofs GoMap NamesModel ConceptsModel BindingModel GoNamesModel GoTimeModel ReporterModel ObjectsModel ObjectsSpec TextModel JsonModel JsonSpec JsonProofs JsonProofs4 JsonProofs5 JsonProofs6 JsonProofs7 JsonProofs8 JsonTextModel JsonTextSpec JsonTextProofs JsonTextProofs2.
Import ListNotations.
Local Open Scope string_scope.

Lemma tokens_unique j j' : tokens j = tokens j' -> j = j'.
Proof.
  intros E. pose proof (json_parsed j (S (length (tokens j))) [] ltac:(lia)) as H. pose proof (json_parsed j' (S (length (tokens j'))) [] ltac:(lia)) as H'.
  rewrite E in H. rewrite H in H'. now injection H'.
Qed.

Lemma document_unique text j j' : json_document text j -> json_document text j' -> j = j'.
Proof. intros [_ H] [_ H']. apply tokens_unique. now apply (lexes_unique _ _ H). Qed.

Lemma strings_read_back s : string_text (escape s) s /\
  forall t s' rest rest', string_text t s' -> (escape s ++ String double_quote rest)%string = (t ++ String double_quote rest')%string -> s' = s /\ rest' = rest.
Proof.
  split; [apply escape_spec|]. intros t s' rest rest' T E. destruct (string_text_unique _ _ (escape_spec s) _ _ _ _ T E). auto.
Qed.

Lemma object_text o v t b l : standard v -> compiles v -> faithful o -> structural t -> fits t -> object_typed v t b ->
  marshal_object o v t (Some b) = WOk l ->
  exists j, json_document (write_tokens 0 l) j /\ shows_object o v t b j /\ forall j', json_document (write_tokens 0 l) j' -> j' = j.
Proof.
  intros A B C D E F G. destruct (object_document o v t b l A B C D E F G) as (j & -> & W & H).
  exists j. split; [now apply document_text|]. split; [assumption|]. intros j' H'. apply (document_unique _ _ _ H'). now apply document_text.
Qed.

Lemma list_text o v t e l r : standard v -> compiles v -> faithful o -> plain v t -> t_element t = Some e -> all1 (typed v e false) l ->
  marshal_list o v e l = WOk r ->
  exists m, json_document (write_tokens 0 r) (JArr m) /\ all2 (fun y x => shows o v e x y) m l /\
    forall j', json_document (write_tokens 0 r) j' -> j' = JArr m.
Proof.
  intros A B C D E F G. destruct (list_document o v t e l r A B C D E F G) as (m & -> & W & H).
  exists m. split; [now apply document_text|]. split; [assumption|]. intros j' H'. apply (document_unique _ _ _ H'). now apply document_text.
Qed.
