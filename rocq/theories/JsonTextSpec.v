(** The lexical grammar of JSON, as defined in RFC 8259. *)
From Coq Require Import Ascii String Bool Arith ZArith NArith List.
From Verif Require Import GoStrings JsonModel JsonSpec.
Import ListNotations.
Local Open Scope string_scope.

(** White space. *)
Definition json_space (c : ascii) : Prop := In (N_of_ascii c) [9; 10; 13; 32]%N.

(** Hexadecimal digits. *)
Definition hex_value (c : ascii) (n : N) : Prop :=
  let x := N_of_ascii c in
  (48 <= x <= 57 /\ n = x - 48)%N \/ (65 <= x <= 70 /\ n = x - 55)%N \/ (97 <= x <= 102 /\ n = x - 87)%N.
Definition hex4 (a b c d : ascii) (n : N) : Prop :=
  exists i j k l, hex_value a i /\ hex_value b j /\ hex_value c k /\ hex_value d l /\ n = (((i * 16 + j) * 16 + k) * 16 + l)%N.

(** Encoding of code points in UTF-8. *)
Definition utf8 (n : N) (s : string) : Prop :=
  (n < 128 /\ s = String (ascii_of_N n) "")%N \/
  (128 <= n < 2048 /\ s = String (ascii_of_N (192 + n / 64)) (String (ascii_of_N (128 + n mod 64)) ""))%N \/
  (2048 <= n < 65536 /\
   s = String (ascii_of_N (224 + n / 4096)) (String (ascii_of_N (128 + (n / 64) mod 64)) (String (ascii_of_N (128 + n mod 64)) "")))%N \/
  (65536 <= n < 1114112 /\
   s = String (ascii_of_N (240 + n / 262144)) (String (ascii_of_N (128 + (n / 4096) mod 64))
         (String (ascii_of_N (128 + (n / 64) mod 64)) (String (ascii_of_N (128 + n mod 64)) ""))))%N.
Definition surrogate (n : N) : Prop := (55296 <= n < 57344)%N.

(** Characters that are written after a backslash, and what they mean. *)
Definition escapes (e c : N) : Prop :=
  In (e, c) [(34, 34); (92, 92); (47, 47); (98, 8); (102, 12); (110, 10); (114, 13); (116, 9)]%N.

(** The text between the quotes of a string, and its content.  Surrogates that aren't part of a pair aren't
    accepted.  The encoding of the characters that aren't escaped isn't checked. *)
Inductive string_text : string -> string -> Prop :=
| st_nil : string_text "" ""
| st_char c b s : (32 <= N_of_ascii c)%N -> N_of_ascii c <> 34%N -> N_of_ascii c <> 92%N -> string_text b s -> string_text (String c b) (String c s)
| st_escape e c b s : escapes (N_of_ascii e) (N_of_ascii c) -> string_text b s -> string_text (String "092" (String e b)) (String c s)
| st_unicode a1 a2 a3 a4 n u b s : hex4 a1 a2 a3 a4 n -> ~ surrogate n -> utf8 n u -> string_text b s ->
    string_text (String "092" (String "u" (String a1 (String a2 (String a3 (String a4 b)))))) (u ++ s)
| st_pair a1 a2 a3 a4 b1 b2 b3 b4 n m u b s : hex4 a1 a2 a3 a4 n -> hex4 b1 b2 b3 b4 m -> (55296 <= n < 56320)%N -> (56320 <= m < 57344)%N ->
    utf8 (65536 + (n - 55296) * 1024 + (m - 56320))%N u -> string_text b s ->
    string_text (String "092" (String "u" (String a1 (String a2 (String a3 (String a4
      (String "092" (String "u" (String b1 (String b2 (String b3 (String b4 b)))))))))))) (u ++ s).

(** Characters that can be part of numbers. *)
Definition number_char (c : ascii) : Prop := (48 <= N_of_ascii c <= 57)%N \/ In (N_of_ascii c) [43; 45; 46; 69; 101]%N.
Definition no_number (s : string) : Prop := forall c r, s = String c r -> ~ number_char c.

(** The tokens of a text. *)
Inductive lexes : string -> list token -> Prop :=
| lx_nil : lexes "" []
| lx_space c s l : json_space c -> lexes s l -> lexes (String c s) l
| lx_lbrace s l : lexes s l -> lexes (String "{" s) (TLBrace :: l)
| lx_rbrace s l : lexes s l -> lexes (String "}" s) (TRBrace :: l)
| lx_lbracket s l : lexes s l -> lexes (String "[" s) (TLBracket :: l)
| lx_rbracket s l : lexes s l -> lexes (String "]" s) (TRBracket :: l)
| lx_colon s l : lexes s l -> lexes (String ":" s) (TColon :: l)
| lx_comma s l : lexes s l -> lexes (String "," s) (TComma :: l)
| lx_null s l : lexes s l -> lexes ("null" ++ s) (TNull :: l)
| lx_true s l : lexes s l -> lexes ("true" ++ s) (TBool true :: l)
| lx_false s l : lexes s l -> lexes ("false" ++ s) (TBool false :: l)
| lx_number n s l : json_number n -> no_number s -> lexes s l -> lexes (n ++ s) (TNum n :: l)
| lx_string b c s l : string_text b c -> lexes s l -> lexes (String "034" (b ++ String "034" s)) (TStr c :: l).

(** A text is a JSON document. *)
Definition json_document (text : string) (j : json) : Prop := well_formed j /\ lexes text (tokens j).
