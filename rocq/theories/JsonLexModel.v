(** Model of how the iterators of jsoniter find the tokens in a text.

    This is what jsoniter does with the texts that RFC 8259 allows.  For other texts: the tokens before the first error are
    found, and the rest of the text is never a token, so the functions of the model that try to read more of it fail.
    Simplification: jsoniter accepts surrogates that aren't part of a pair, and here they are errors. *)
From Coq Require Import Ascii String Bool Arith ZArith NArith List.
From Verif Require Import GoStrings JsonModel.
Import ListNotations.
Local Open Scope string_scope.

(** jsoniter, iter_str.go: the value of an hexadecimal digit, and of four of them ([readU4]). *)
Definition hex_of (c : ascii) : option N :=
  let x := N_of_ascii c in
  if N.leb 48 x && N.leb x 57 then Some (x - 48)%N
  else if N.leb 65 x && N.leb x 70 then Some (x - 55)%N
  else if N.leb 97 x && N.leb x 102 then Some (x - 87)%N
  else None.
Definition hex4_of (a b c d : ascii) : option N :=
  match hex_of a, hex_of b, hex_of c, hex_of d with
  | Some i, Some j, Some k, Some l => Some (((i * 16 + j) * 16 + k) * 16 + l)%N
  | _, _, _, _ => None
  end.

(** jsoniter, iter_str.go: [appendRune]. *)
Definition utf8_of (n : N) : string :=
  if N.ltb n 128 then String (ascii_of_N n) ""
  else if N.ltb n 2048 then String (ascii_of_N (192 + n / 64)) (String (ascii_of_N (128 + n mod 64)) "")
  else if N.ltb n 65536 then
    String (ascii_of_N (224 + n / 4096)) (String (ascii_of_N (128 + (n / 64) mod 64)) (String (ascii_of_N (128 + n mod 64)) ""))
  else
    String (ascii_of_N (240 + n / 262144)) (String (ascii_of_N (128 + (n / 4096) mod 64))
      (String (ascii_of_N (128 + (n / 64) mod 64)) (String (ascii_of_N (128 + n mod 64)) ""))).

(** jsoniter, iter_str.go: [readEscapedChar], except for the code points. *)
Definition unescape (e : ascii) : option ascii :=
  match N_of_ascii e with
  | 34%N => Some (ascii_of_N 34)
  | 92%N => Some (ascii_of_N 92)
  | 47%N => Some (ascii_of_N 47)
  | 98%N => Some (ascii_of_N 8)
  | 102%N => Some (ascii_of_N 12)
  | 110%N => Some (ascii_of_N 10)
  | 114%N => Some (ascii_of_N 13)
  | 116%N => Some (ascii_of_N 9)
  | _ => None
  end.

Definition prepend (a : string) (r : option (string * string)) : option (string * string) :=
  match r with Some (x, rest) => Some (a ++ x, rest) | None => None end.

(** jsoniter, iter_str.go: [ReadString] after the first quote: the content, and the text after the last quote. *)
Fixpoint lex_string (s : string) : option (string * string) :=
  match s with
  | EmptyString => None
  | String c r =>
      if N.eqb (N_of_ascii c) 34 then Some ("", r)
      else if N.eqb (N_of_ascii c) 92 then
        match r with
        | String e r1 =>
            if N.eqb (N_of_ascii e) 117 then
              match r1 with
              | String a1 (String a2 (String a3 (String a4 r2))) =>
                  match hex4_of a1 a2 a3 a4 with
                  | None => None
                  | Some n =>
                      if N.leb 55296 n && N.ltb n 57344 then
                        match r2 with
                        | String q1 (String q2 (String b1 (String b2 (String b3 (String b4 r3))))) =>
                            match hex4_of b1 b2 b3 b4 with
                            | None => None
                            | Some m =>
                                if N.eqb (N_of_ascii q1) 92 && N.eqb (N_of_ascii q2) 117 && N.ltb n 56320 && N.leb 56320 m && N.ltb m 57344 then
                                  prepend (utf8_of (65536 + (n - 55296) * 1024 + (m - 56320))%N) (lex_string r3)
                                else None
                            end
                        | _ => None
                        end
                      else prepend (utf8_of n) (lex_string r2)
                  end
              | _ => None
              end
            else match unescape e with Some x => prepend (String x "") (lex_string r1) | None => None end
        | EmptyString => None
        end
      else if N.ltb (N_of_ascii c) 32 then None
      else prepend (String c "") (lex_string r)
  end.

(** jsoniter, iter.go: [nextToken]. *)
Definition is_space (c : ascii) : bool := existsb (N.eqb (N_of_ascii c)) [9; 10; 13; 32]%N.

(** jsoniter, iter_float.go and iter_skip_strict.go: the characters of numbers, and the syntax of numbers. *)
Definition is_digit_char (c : ascii) : bool := N.leb 48 (N_of_ascii c) && N.leb (N_of_ascii c) 57.
Definition is_number_char (c : ascii) : bool := is_digit_char c || existsb (N.eqb (N_of_ascii c)) [43; 45; 46; 69; 101]%N.
Fixpoint span_number (s : string) : string * string :=
  match s with
  | EmptyString => ("", "")
  | String c r => if is_number_char c then let (a, b) := span_number r in (String c a, b) else ("", s)
  end.
Fixpoint skip_digits (s : string) : string :=
  match s with EmptyString => "" | String c r => if is_digit_char c then skip_digits r else s end.
Definition some_digits (s : string) : option string :=
  match s with String c r => if is_digit_char c then Some (skip_digits r) else None | EmptyString => None end.
Definition skip_integer (s : string) : option string :=
  match s with
  | String c r => if N.eqb (N_of_ascii c) 48 then Some r else some_digits s
  | EmptyString => None
  end.
Definition skip_fraction (s : string) : option string :=
  match s with
  | String c r => if N.eqb (N_of_ascii c) 46 then some_digits r else Some s
  | EmptyString => Some s
  end.
Definition skip_exponent (s : string) : option string :=
  match s with
  | String c r =>
      if N.eqb (N_of_ascii c) 69 || N.eqb (N_of_ascii c) 101 then
        match r with
        | String d r' => if N.eqb (N_of_ascii d) 43 || N.eqb (N_of_ascii d) 45 then some_digits r' else some_digits r
        | EmptyString => None
        end
      else Some s
  | EmptyString => Some s
  end.
Definition is_number (s : string) : bool :=
  let s := match s with String c r => if N.eqb (N_of_ascii c) 45 then r else s | EmptyString => s end in
  match skip_integer s with
  | None => false
  | Some s => match skip_fraction s with None => false | Some s => match skip_exponent s with Some "" => true | _ => false end end
  end.

(** The tokens of a text; the fuel limits their number. *)
Fixpoint lex (n : nat) (s : string) : list token :=
  match n with
  | O => []
  | S n =>
      match s with
      | EmptyString => []
      | String c r =>
          if is_space c then lex n r
          else if Ascii.eqb c "{" then TLBrace :: lex n r
          else if Ascii.eqb c "}" then TRBrace :: lex n r
          else if Ascii.eqb c "[" then TLBracket :: lex n r
          else if Ascii.eqb c "]" then TRBracket :: lex n r
          else if Ascii.eqb c ":" then TColon :: lex n r
          else if Ascii.eqb c "," then TComma :: lex n r
          else if N.eqb (N_of_ascii c) 34 then match lex_string r with Some (x, rest) => TStr x :: lex n rest | None => [] end
          else if is_number_char c then
            let (a, rest) := span_number s in if is_number a then TNum a :: lex n rest else []
          else if has_prefix s "null" then TNull :: lex n (str_drop 4 s)
          else if has_prefix s "true" then TBool true :: lex n (str_drop 4 s)
          else if has_prefix s "false" then TBool false :: lex n (str_drop 5 s)
          else []
      end
  end.
Definition lex_text (s : string) : list token := lex (S (String.length s)) s.
