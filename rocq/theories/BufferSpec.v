(** Vocabulary used to state the properties of the buffers of the generators. *)
From Coq Require Import Ascii String Bool Arith ZArith NArith List.
From Verif Require Import GoStrings GoMap ReporterModel TextModel TextSpec BufferModel.
Import ListNotations.
Local Open Scope string_scope.

(** The number of errors that have been reported. *)
Inductive errors_in : list report -> nat -> Prop :=
| ei_nil : errors_in [] 0
| ei_error m l n : errors_in l n -> errors_in (MkReport SError m :: l) (S n)
| ei_other s m l n : s <> SError -> errors_in l n -> errors_in (MkReport s m :: l) n.

(** The message that tells how many errors were reported. *)
Definition says (n : nat) (message : string) : Prop :=
  (n = 1 /\ message = "there was 1 error") \/ (2 <= n /\ message = "there were " ++ itoa n ++ " errors").

(** The only file that can change. *)
Definition only_changes (path : string) (before after : files) : Prop := forall p, p <> path -> mget p after = mget p before.

(** The arguments of a template are pairs of keys and values. *)
Inductive keyed : list argument -> list (string * argument) -> Prop :=
| keyed_nil : keyed [] []
| keyed_cons k v args pairs : keyed args pairs -> keyed (ArgString k :: v :: args) ((k, v) :: pairs).

(** The value of a key is the last one. *)
Definition last_value (k : string) (pairs : list (string * argument)) (v : argument) : Prop :=
  exists a b, pairs = (a ++ (k, v) :: b)%list /\ ~ In k (map fst b).

(** Removing all the occurrences of a text, from left to right. *)
Inductive without (p : string) : string -> string -> Prop :=
| wo_nil : without p "" ""
| wo_match s r : without p s r -> without p (p ++ s) r
| wo_other c s r : (forall s', String c s <> (p ++ s')%string) -> without p s r -> without p (String c s) (String c r).

(** How the arguments are seen by the templates of a package: the references to types of the same package don't
    have the selector. *)
Inductive shown (pkg : string) : argument -> value -> Prop :=
| sh_string s : shown pkg (ArgString s) (ValString s)
| sh_other id : shown pkg (ArgOther id) (ValOther id)
| sh_foreign i s t : i <> pkg -> shown pkg (ArgReference i s t) (ValString t)
| sh_own s t r : without (s ++ ".") t r -> shown pkg (ArgReference pkg s t) (ValString r).

(** The text of a template, calculated with the values of the arguments.  The result also contains the imports
    that the functions used by the template need. *)
Definition rendered (t : templates) (show : argument -> value -> Prop) (tmpl : string) (args : list argument) (text : string)
    (imports : list (string * string)) : Prop :=
  exists pairs data, keyed args pairs /\ t tmpl data = inl (text, imports) /\ NoDup (map fst data) /\
    (forall k v, mget k data = Some v <-> exists a, last_value k pairs a /\ show a v).

(** The texts of the templates of a history. *)
Inductive all_rendered (t : templates) (show : argument -> value -> Prop) : list event -> list string -> list (string * string) -> Prop :=
| ar_nil : all_rendered t show [] [] []
| ar_emit tmpl args text imports l texts more : rendered t show tmpl args text imports -> all_rendered t show l texts more ->
    all_rendered t show (Emitted tmpl args :: l) (text :: texts) (imports ++ more)
| ar_import i s l texts more : all_rendered t show l texts more -> all_rendered t show (Imported i s :: l) texts more
| ar_report r l texts more : rp_severity r <> SError -> all_rendered t show l texts more -> all_rendered t show (Reported r :: l) texts more.

(** The imports mentioned in a history. *)
Definition mentioned (l : list event) (i s : string) : Prop :=
  In (Imported i s) l \/
  exists tmpl args pairs k t, In (Emitted tmpl args) l /\ keyed args pairs /\ last_value k pairs (ArgReference i s t).

(** How the arguments are seen by the Markdown templates. *)
Inductive shown_plain : argument -> value -> Prop :=
| sp_string s : shown_plain (ArgString s) (ValString s)
| sp_other id : shown_plain (ArgOther id) (ValOther id)
| sp_reference i s t : shown_plain (ArgReference i s t) (ValString t).

(** The import statement for some imports. *)
Definition import_spec (i s line : string) : Prop :=
  (s = "" /\ line = """" ++ i ++ """") \/ (s <> "" /\ line = s ++ " """ ++ i ++ """").
Definition import_block (imports : list (string * string)) (block : string) : Prop :=
  (imports = [] /\ block = "") \/
  (imports <> [] /\ exists lines, Forall2 (fun p line => import_spec (fst p) (snd p) line) imports lines /\
     block = terminated (("import (" :: lines) ++ [")"; ""])).

(** The templates don't depend on the order of the maps. *)
Definition unordered (t : templates) : Prop :=
  forall tmpl d d', NoDup (map fst d) -> NoDup (map fst d') -> (forall k, mget k d = mget k d') -> t tmpl d = t tmpl d'.
