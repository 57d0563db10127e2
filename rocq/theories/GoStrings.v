(** Model of the parts of the Go packages [strings] and [unicode] that the code under study uses.

    Go strings are modelled as Coq [string]s, i.e. as sequences of bytes.  Simplification: only the
    ASCII part of the [unicode] tables is modelled (bytes 128 and above are neither letters nor
    digits nor spaces).  Identifiers of the language are ASCII by the lexer grammar
    (pkg/language/ModelLexer.g4, rule IDENTIFIER). *)
From Coq Require Import Ascii String Bool Arith ZArith NArith List.
Import ListNotations.
Local Open Scope string_scope.

(** Standard library function [unicode.IsLower], ASCII part. *)
Definition is_lower (c : ascii) : bool :=
  let n := nat_of_ascii c in Nat.leb 97 n && Nat.leb n 122.

(** Standard library function [unicode.IsUpper], ASCII part. *)
Definition is_upper (c : ascii) : bool :=
  let n := nat_of_ascii c in Nat.leb 65 n && Nat.leb n 90.

(** Standard library function [unicode.IsDigit], ASCII part. *)
Definition is_digit (c : ascii) : bool :=
  let n := nat_of_ascii c in Nat.leb 48 n && Nat.leb n 57.

(** Standard library function [unicode.IsSpace], ASCII part: tab, line feed, vertical tab, form
    feed, carriage return and blank. *)
Definition is_space (c : ascii) : bool :=
  let n := nat_of_ascii c in (Nat.leb 9 n && Nat.leb n 13) || Nat.eqb n 32.

(** Standard library function [unicode.ToLower], ASCII part. *)
Definition to_lower (c : ascii) : ascii :=
  if is_upper c then ascii_of_nat (nat_of_ascii c + 32) else c.

(** Standard library function [unicode.ToUpper], ASCII part. *)
Definition to_upper (c : ascii) : ascii :=
  if is_lower c then ascii_of_nat (nat_of_ascii c - 32) else c.

(** Applies a function to every byte of a string (loop shape of [strings.Map]). *)
Fixpoint str_map (f : ascii -> ascii) (s : string) : string :=
  match s with
  | EmptyString => EmptyString
  | String c r => String (f c) (str_map f r)
  end.

(** Checks that all the bytes of a string satisfy a predicate ([for _, r := range s]). *)
Fixpoint str_all (p : ascii -> bool) (s : string) : bool :=
  match s with
  | EmptyString => true
  | String c r => p c && str_all p r
  end.

(** Standard library function [strings.ToLower]. *)
Definition str_lower (s : string) : string := str_map to_lower s.

(** Standard library function [strings.ToUpper]. *)
Definition str_upper (s : string) : string := str_map to_upper s.

(** Standard library function [strings.isSeparator], ASCII part: letters, digits and underscore are
    not separators, all the other ASCII characters are. *)
Definition is_title_separator (c : ascii) : bool :=
  negb (is_lower c || is_upper c || is_digit c || Ascii.eqb c "_"%char).

(** Loop of the standard library function [strings.Title]: converts to upper case the letters that
    follow a separator. *)
Fixpoint title_from (prev : ascii) (s : string) : string :=
  match s with
  | EmptyString => EmptyString
  | String c r =>
      String (if is_title_separator prev then to_upper c else c) (title_from c r)
  end.

(** Standard library function [strings.Title]; the initial previous character is a blank. *)
Definition str_title (s : string) : string := title_from " "%char s.

(** Standard library function [strings.Join]. *)
Fixpoint str_join (sep : string) (l : list string) : string :=
  match l with
  | [] => ""
  | [s] => s
  | s :: r => s ++ sep ++ str_join sep r
  end.

(** Standard library function [strings.Split] for a separator of one byte: [cur] is the part of the
    current piece that has already been seen. *)
Fixpoint split_loop (sep : ascii) (cur : string) (s : string) : list string :=
  match s with
  | EmptyString => [cur]
  | String c r =>
      if Ascii.eqb c sep then cur :: split_loop sep "" r
      else split_loop sep (cur ++ String c "") r
  end.

Definition str_split (sep : ascii) (s : string) : list string := split_loop sep "" s.

(** Standard library function [strings.Compare]: -1, 0 or +1. *)
Definition str_compare (a b : string) : Z :=
  match String.compare a b with
  | Lt => (-1)%Z
  | Eq => 0%Z
  | Gt => 1%Z
  end.

(** Standard library function [strings.HasPrefix]. *)
Fixpoint has_prefix (s p : string) : bool :=
  match p, s with
  | EmptyString, _ => true
  | String a p', String b s' => Ascii.eqb a b && has_prefix s' p'
  | String _ _, EmptyString => false
  end.

(** Slicing from an index: [s[n:]]; the model is only used for indexes within the string. *)
Fixpoint str_drop (n : nat) (s : string) : string :=
  match n, s with
  | O, _ => s
  | S n', String _ r => str_drop n' r
  | S _, EmptyString => EmptyString
  end.

(** Slicing up to an index: [s[0:n]]; the model is only used for indexes within the string. *)
Fixpoint str_take (n : nat) (s : string) : string :=
  match n, s with
  | O, _ => EmptyString
  | S n', String c r => String c (str_take n' r)
  | S _, EmptyString => EmptyString
  end.

(** Standard library function [strings.TrimPrefix]. *)
Definition trim_prefix (s p : string) : string :=
  if has_prefix s p then str_drop (String.length p) s else s.

(** Standard library function [strings.IndexFunc]; [None] stands for -1. *)
Fixpoint index_func (p : ascii -> bool) (s : string) : option nat :=
  match s with
  | EmptyString => None
  | String c r =>
      if p c then Some 0
      else match index_func p r with Some i => Some (S i) | None => None end
  end.

(** Standard library function [strings.TrimLeftFunc]. *)
Fixpoint trim_left_func (p : ascii -> bool) (s : string) : string :=
  match s with
  | EmptyString => EmptyString
  | String c r => if p c then trim_left_func p r else s
  end.

(** Standard library function [strings.TrimRightFunc]. *)
Fixpoint trim_right_func (p : ascii -> bool) (s : string) : string :=
  match s with
  | EmptyString => EmptyString
  | String c r =>
      match trim_right_func p r with
      | EmptyString => if p c then EmptyString else String c EmptyString
      | r' => String c r'
      end
  end.
