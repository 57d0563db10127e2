(** Model of the text that the streams of jsoniter write, with the configuration used by the generated code
    (pkg/generators/golang/json_generator.go:274-281) and by the generator of OpenAPI documents
    (pkg/generators/openapi/buffer.go:75-78): an indentation of two spaces.

    Each token of the model corresponds to one of the methods of the stream.  Simplification: the empty slices
    written with [WriteVal], inside values of type [interface{}], don't have white space inside. *)
From Coq Require Import Ascii String Bool Arith ZArith NArith List.
From Verif Require Import GoStrings ReporterModel TextModel JsonModel.
Import ListNotations.
Local Open Scope string_scope.

Definition double_quote : ascii := "034".
Definition backslash : ascii := "092".

(** jsoniter, stream_str.go: the characters that [WriteString] escapes. *)
Definition escape_char (c : ascii) : string :=
  if Ascii.eqb c double_quote || Ascii.eqb c backslash then String backslash (String c "")
  else if Ascii.eqb c lf then String backslash "n"
  else if Ascii.eqb c cr then String backslash "r"
  else if Ascii.eqb c tab then String backslash "t"
  else if N.ltb (N_of_ascii c) 32 then
    String backslash (String "u" (String "0" (String "0" (String (hex_digit (N_of_ascii c / 16)) (String (hex_digit (N_of_ascii c mod 16)) "")))))
  else String c "".
Fixpoint escape (s : string) : string :=
  match s with
  | EmptyString => EmptyString
  | String c r => escape_char c ++ escape r
  end.

(** jsoniter, stream_str.go: [WriteString] *)
Definition quote (s : string) : string := String double_quote (escape s ++ String double_quote "").

(** A number of spaces. *)
Fixpoint spaces (n : nat) : string := match n with 0 => "" | S n => String " " (spaces n) end.

(** jsoniter, stream.go: [writeIndention] *)
Definition indent (indention delta : nat) : string :=
  if Nat.eqb indention 0 then "" else newline ++ spaces (indention - delta).

(** jsoniter, stream.go: the methods of the stream, with the indentation before and after. *)
Definition write_token (indention : nat) (t : token) : string * nat :=
  match t with
  | TLBrace => ("{" ++ indent (indention + 2) 0, indention + 2)
  | TRBrace => (indent indention 2 ++ "}", indention - 2)
  | TLBracket => ("[" ++ indent (indention + 2) 0, indention + 2)
  | TRBracket => (indent indention 2 ++ "]", indention - 2)
  | TColon => (if Nat.ltb 0 indention then ": " else ":", indention)
  | TComma => ("," ++ indent indention 0, indention)
  | TNull => ("null", indention)
  | TBool true => ("true", indention)
  | TBool false => ("false", indention)
  | TNum s => (s, indention)
  | TStr s => (quote s, indention)
  end.

(** The text written for a list of tokens. *)
Fixpoint write_tokens (indention : nat) (l : list token) : string :=
  match l with
  | [] => ""
  | t :: r => let (text, indention) := write_token indention t in text ++ write_tokens indention r
  end.
