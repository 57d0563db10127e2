(** Vocabulary used to state the properties of names, independent of the model of the code. *)
From Coq Require Import Ascii String Bool Arith ZArith List.
From Verif Require Import GoStrings NamesModel.
Import ListNotations.
Local Open Scope string_scope.

(** Byte-wise lexicographic order of strings. *)
Inductive str_lt : string -> string -> Prop :=
| str_lt_nil c s : str_lt "" (String c s)
| str_lt_head a b s t : nat_of_ascii a < nat_of_ascii b -> str_lt (String a s) (String b t)
| str_lt_tail a s t : str_lt s t -> str_lt (String a s) (String a t).

(** Lexicographic order of lists of strings, a proper prefix is smaller. *)
Inductive words_lt : list string -> list string -> Prop :=
| words_lt_nil x l : words_lt [] (x :: l)
| words_lt_head x y l m : str_lt x y -> words_lt (x :: l) (y :: m)
| words_lt_tail x l m : words_lt l m -> words_lt (x :: l) (x :: m).

(** The texts of the words of a name. *)
Definition texts (n : name) : list string := map w_text (n_words n).

(** An ordinary word: a lower case letter or digit followed by at least one lower case letter. *)
Definition ordinary (w : word) : Prop :=
  w_init w = false /\
  exists c r, w_text w = String c r /\ is_lower c || is_digit c = true /\
              r <> "" /\ str_all is_lower r = true.

Definition upper_or_digit (c : ascii) : bool := is_upper c || is_digit c.

(** A singular initialism: two or more upper case letters or digits. *)
Definition singular_initialism (w : word) : Prop :=
  w_init w = true /\ 2 <= String.length (w_text w) /\ str_all upper_or_digit (w_text w) = true.

(** A plural initialism: a singular initialism with an additional lower case s. *)
Definition plural_initialism (w : word) : Prop :=
  w_init w = true /\
  exists s, w_text w = s ++ "s" /\ 2 <= String.length s /\ str_all upper_or_digit s = true.

(** Word sequences that can be written in camel case without ambiguity: a singular initialism is
    only followed by an ordinary word, and that word isn't a single letter followed by an s (as it
    would look like a plural). *)
Inductive camel_words : list word -> Prop :=
| cw_nil : camel_words []
| cw_ordinary w ws : ordinary w -> camel_words ws -> camel_words (w :: ws)
| cw_plural w ws : plural_initialism w -> camel_words ws -> camel_words (w :: ws)
| cw_last w : singular_initialism w -> camel_words [w]
| cw_singular w v ws :
    singular_initialism w -> ordinary v -> (forall c, w_text v <> String c "s") ->
    camel_words ws -> camel_words (w :: v :: ws).

(** Identifiers made only of letters and digits whose first character isn't a lower case letter. *)
Definition camel_identifier (t : string) : Prop :=
  exists c r, t = String c r /\ upper_or_digit c = true /\
              str_all (fun d => is_lower d || upper_or_digit d) r = true.

(** The character doesn't occur in the string. *)
Definition free_of (c : ascii) (s : string) : Prop := ~ In c (list_ascii_of_string s).
