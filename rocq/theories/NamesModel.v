(** Model of pkg/names: words, names, comparison, renderings and parsers. *)
From Coq Require Import Ascii String Bool Arith ZArith List.
From Verif Require Import GoStrings.
Import ListNotations.
Local Open Scope string_scope.

(** pkg/names/words.go:24-27, type [Word]. *)
Record word := MkWord { w_text : string; w_init : bool }.

(** pkg/names/words.go:30-35, [NewWord]. *)
Definition new_word (t : string) : word := MkWord t false.

(** pkg/names/words.go:38-43, [NewInitialism]. *)
Definition new_initialism (t : string) : word := MkWord t true.

(** pkg/names/words.go:58-63, [Capitalize]. *)
Definition capitalize (w : word) : string :=
  if w_init w then w_text w else str_title (w_text w).

(** pkg/names/words.go:66-74, [Word.Equals].  Simplification: words stored in a name are never nil,
    so the nil cases (lines 67-72) aren't modelled. *)
Definition word_equals (a b : word) : bool :=
  String.eqb (w_text a) (w_text b) && Bool.eqb (w_init a) (w_init b).

(** pkg/names/name.go:27-30, type [Name]. *)
Record name := MkName { n_text : string; n_words : list word }.

(** pkg/names/name.go:33-38, [NewName]; the original text is empty. *)
Definition new_name (ws : list word) : name := MkName "" ws.

(** pkg/names/name.go:60-63, [Append]. *)
Definition name_append (n : name) (ws : list word) : name := new_name (n_words n ++ ws)%list.

(** pkg/names/name.go:66-69, [Insert]. *)
Definition name_insert (n : name) (ws : list word) : name := new_name (ws ++ n_words n)%list.

(** pkg/names/name.go:79-87, loop of [Equals] after the nil checks. *)
Fixpoint words_equal (a b : list word) : bool :=
  match a, b with
  | [], [] => true
  | x :: a', y :: b' => word_equals x y && words_equal a' b'
  | _, _ => false
  end.

(** pkg/names/name.go:72-88, [Equals]; nil pointers are [None]. *)
Definition name_equals (a b : option name) : bool :=
  match a, b with
  | None, None => true
  | Some x, Some y => words_equal (n_words x) (n_words y)
  | _, _ => false
  end.

(** pkg/names/name.go:92-98, [LowerJoined]. *)
Definition lower_joined (sep : string) (n : name) : string :=
  str_join sep (map (fun w => str_lower (w_text w)) (n_words n)).

(** pkg/names/name.go:102-108, [UpperJoined]. *)
Definition upper_joined (sep : string) (n : name) : string :=
  str_join sep (map (fun w => str_upper (w_text w)) (n_words n)).

(** pkg/names/name.go:112-118, [CapitalizedJoined]. *)
Definition capitalized_joined (sep : string) (n : name) : string :=
  str_join sep (map capitalize (n_words n)).

(** pkg/names/name.go:122-128, [String]. *)
Definition name_string (n : name) : string := str_join "_" (map w_text (n_words n)).

(** pkg/names/name.go:131-133, [Snake]. *)
Definition snake (n : name) : string := lower_joined "_" n.

(** pkg/names/name.go:136-138, [Camel]. *)
Definition camel (n : name) : string := capitalized_joined "" n.

(** pkg/names/name.go:149-156, loop of [Compare] over the common prefix of the words: the result of
    the first difference, or 0. *)
Fixpoint compare_prefix (a b : list word) : Z :=
  match a, b with
  | x :: a', y :: b' =>
      let r := str_compare (w_text x) (w_text y) in
      if Z.eqb r 0 then compare_prefix a' b' else r
  | _, _ => 0%Z
  end.

(** pkg/names/name.go:141-165, [Compare], for names that aren't nil. *)
Definition name_compare (a b : name) : Z :=
  let r := compare_prefix (n_words a) (n_words b) in
  if Z.eqb r 0 then
    if Nat.ltb (length (n_words a)) (length (n_words b)) then (-1)%Z
    else if Nat.ltb (length (n_words b)) (length (n_words a)) then 1%Z
    else r
  else r.

(** pkg/names/name.go:168-183, [Cat]. *)
Definition cat (ns : list name) : name := new_name (flat_map n_words ns).

(** pkg/names/name.go:199-201, [Names.Less]; the same expression is used by all the [Less] methods of
    pkg/concepts (for example pkg/concepts/type.go:270-272). *)
Definition name_less (a b : name) : bool := Z.eqb (name_compare a b) (-1).

(** pkg/names/case.go:26-33, [isLower]. *)
Definition is_lower_str (s : string) : bool := str_all is_lower s.

(** pkg/names/case.go:36-43, [isUpper]. *)
Definition is_upper_str (s : string) : bool := str_all (fun c => is_upper c || is_digit c) s.

(** pkg/names/parser.go:30-39, [ParseUsingSeparator], for a separator of one byte (the only one used
    in the code is the underscore). *)
Definition parse_using_separator (t : string) (sep : ascii) : name :=
  MkName t (map new_word (str_split sep t)).

(** pkg/names/parser.go:135-140, [parseWord]. *)
Definition parse_word (t : string) : word :=
  if Nat.leb 2 (String.length t) && is_upper_str t then new_initialism t
  else new_word (str_lower t).

(** pkg/names/parser.go:55-68, the loop that splits the text at the case transitions: [buf] is the
    content of the buffer, [c] is the current rune and [rest] are the runes after it. *)
Fixpoint chunk_loop (buf : string) (c : ascii) (rest : string) : list string :=
  match rest with
  | EmptyString => [buf ++ String c ""]
  | String d rest' =>
      if Bool.eqb (is_lower c) (is_lower d)
      then chunk_loop (buf ++ String c "") d rest'
      else (buf ++ String c "") :: chunk_loop "" d rest'
  end.

(** pkg/names/parser.go:51-71: texts with less than two runes are one chunk. *)
Definition chunks_of (t : string) : list string :=
  match t with
  | String c (String d r) => chunk_loop "" c (String d r)
  | _ => [t]
  end.

(** pkg/names/parser.go:103-104: [current[0:len(current)-1]]. *)
Definition all_but_last (s : string) : string := str_take (String.length s - 1) s.

(** pkg/names/parser.go:105: [current[len(current)-1:]]. *)
Definition last_of (s : string) : string := str_drop (String.length s - 1) s.

(** pkg/names/parser.go:77-122, the loop that processes pairs of chunks.  Note that line 113 calls
    [parseWord(text)] with the complete text and not with the current chunk; this is modelled as it
    is in the code. *)
Fixpoint process_chunks (t : string) (chunks : list string) : list word :=
  match chunks with
  | [] => []
  | [last] => [parse_word last]
  | current :: ((next :: rest) as tail) =>
      if Nat.eqb (String.length current) 1 && is_upper_str current && is_lower_str next then
        new_word (str_lower current ++ next) :: process_chunks t rest
      else if Nat.leb 2 (String.length current) && is_upper_str current && String.eqb next "s" then
        new_initialism (current ++ "s") :: process_chunks t rest
      else if is_upper_str current && is_lower_str next then
        new_initialism (all_but_last current)
          :: new_word (str_lower (last_of current) ++ next)
          :: process_chunks t rest
      else
        parse_word t :: process_chunks t tail
  end.

(** pkg/names/parser.go:43-132, [ParseUsingCase]. *)
Definition parse_using_case (t : string) : name :=
  let chunks := chunks_of t in
  MkName t (if Nat.ltb 1 (length chunks) then process_chunks t chunks else [parse_word t]).
