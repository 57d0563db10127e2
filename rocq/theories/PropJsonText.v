(** Property theorems about the text of JSON documents (C64). *)
From Coq Require Import Ascii String Bool Arith ZArith NArith Lia List.
From Verif Require Import GoStrings GoMap ReporterModel NamesModel ConceptsModel BindingModel GoNamesModel GoTimeModel ObjectsModel ObjectsSpec ObjectsExamples TextModel JsonModel JsonSpec JsonProofs JsonExamples JsonTextModel JsonTextSpec JsonTextProofs JsonTextProofs2 JsonTextProofs3 JsonLexModel JsonLexProofs JsonLexProofs2.
Import ListNotations.
Local Open Scope string_scope.

(** C64: the text written by the streams for the tokens of a value is a JSON document with that value, with any
    initial indentation. *)
Theorem C64_texts_are_documents : forall j i, well_formed j -> json_document (write_tokens i (tokens j)) j.
Proof. exact document_text. Qed.
Print Assumptions C64_texts_are_documents.
Example C64_texts_are_documents_ex : let j := JObj [("a""", JArr [JNum "1"; JStr (newline ++ String "007" "")]); ("b", JObj [])] in
  well_formed j /\ write_tokens 0 (tokens j) = str_join newline
    ["{"; "  ""a\"""": ["; "    1,"; "    ""\n\u0007"""; "  ],"; "  ""b"": {"; "    "; "  }"; "}"].
Proof.
  split; [|vm_compute; reflexivity]. cbn. split; [|auto]. split; [|auto].
  exists "", "1", "", "". cbn. split; [reflexivity|]. split; [auto|]. split; [right; exists "1"%char, ""; cbn; intuition (discriminate || lia)|auto].
Qed.

(** A text is the document of at most one value, so no other value can be read from it. *)
Theorem C64_documents_are_unambiguous : forall text j j', json_document text j -> json_document text j' -> j = j'.
Proof. exact document_unique. Qed.
Print Assumptions C64_documents_are_unambiguous.
Example C64_documents_are_unambiguous_ex : json_document (write_tokens 0 (tokens (JArr [JStr "x"; JNull]))) (JArr [JStr "x"; JNull]).
Proof. exact (document_text (JArr [JStr "x"; JNull]) 0 (conj I (conj I I))). Qed.

(** Strings can contain any bytes: quotes, backslashes and control characters are escaped, and what is read is
    what was written. *)
Theorem C64_strings : forall s, string_text (escape s) s /\
  forall t s' rest rest', string_text t s' -> escape s ++ String double_quote rest = t ++ String double_quote rest' -> s' = s /\ rest' = rest.
Proof. exact strings_read_back. Qed.
Print Assumptions C64_strings.
Example C64_strings_ex : escape ("a""b\" ++ String "010" (String "031" "")) = "a\""b\\\n\u001f".
Proof. reflexivity. Qed.

(** The texts of objects and lists. *)
Theorem C64_objects : forall o v t b l,
  standard v -> compiles v -> faithful o -> structural t -> fits t -> object_typed v t b ->
  marshal_object o v t (Some b) = WOk l ->
  exists j, json_document (write_tokens 0 l) j /\ shows_object o v t b j /\ forall j', json_document (write_tokens 0 l) j' -> j' = j.
Proof. exact object_text. Qed.
Print Assumptions C64_objects.
Example C64_objects_ex : faithful ex_oracle /\ standard ex_v /\ compiles ex_v /\ structural ex_t /\ fits ex_t /\
  object_typed ex_v ex_t ex_object /\ object_printable ex_oracle ex_v ex_t ex_object.
Proof. exact (conj ex_faithful (conj ex_standard (conj ex_compiles (conj ex_structural (conj ex_fits (conj ex_object_typed ex_printable)))))). Qed.

Theorem C64_lists : forall o v t e l r,
  standard v -> compiles v -> faithful o -> plain v t -> t_element t = Some e -> all1 (typed v e false) l ->
  marshal_list o v e l = WOk r ->
  exists m, json_document (write_tokens 0 r) (JArr m) /\ all2 (fun y x => shows o v e x y) m l /\
    forall j', json_document (write_tokens 0 r) j' -> j' = JArr m.
Proof. exact list_text. Qed.
Print Assumptions C64_lists.
Example C64_lists_ex : plain ex_v ex_l /\ t_element ex_l = Some "thing" /\ all1 (typed ex_v "thing" false) ex_items /\
  marshal_list ex_oracle ex_v "thing" ex_items = WOk ex_items_tokens.
Proof. exact (conj ex_plain (conj ex_element (conj ex_items_typed ex_items_written))). Qed.

(** The readers find in any text, correct or not, only the tokens of the part of it that they have read; when that isn't the complete text the rest of it can't be read by anyone. *)
Theorem C64_tokens : forall text, exists u rest, text = u ++ rest /\ lexes u (lex_text text) /\ (rest = "" \/ forall l, ~ lexes rest l).
Proof. exact lex_text_inv. Qed.
Print Assumptions C64_tokens.
Example C64_tokens_ex : lex_text ("[1, ""a" ++ String "009" "b""]") = [TLBracket; TNum "1"; TComma] /\ lex_text "[-0.5e+1, ""a\tb"", 01]" = [TLBracket; TNum "-0.5e+1"; TComma; TStr ("a" ++ String "009" "b"); TComma] /\
  forall l, ~ lexes ("""a" ++ String "009" "b""]") l.
Proof.
  split; [vm_compute; reflexivity|]. split; [vm_compute; reflexivity|]. intros l H. pose proof (lex_text_spec _ _ H) as E. vm_compute in E. subst l.
  inversion H; subst. match goal with J : json_space _ |- _ => vm_compute in J; intuition discriminate end.
Qed.
