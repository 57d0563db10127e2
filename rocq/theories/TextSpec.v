(** Vocabulary used to state the properties of the functions that process text. *)
From Coq Require Import Ascii String Bool Arith ZArith NArith List.
From Verif Require Import GoStrings ReporterModel TextModel.
Import ListNotations.
Local Open Scope string_scope.

(** A character is somewhere in the text. *)
Definition occurs (c : ascii) (s : string) : Prop := exists a b, s = (a ++ String c b)%string.

(** Lines: the text is the lines with their terminators, maybe without the terminator of the last one, which
    then isn't empty. *)
Definition is_line (s : string) : Prop := ~ occurs lf s.
Definition terminated (l : list string) : string := String.concat "" (map (fun s => (s ++ String lf "")%string) l).
Definition text_lines (s : string) (l : list string) : Prop :=
  Forall is_line l /\
  (s = terminated l \/ exists l' last, l = (l' ++ [last])%list /\ last <> "" /\ s = (terminated l' ++ last)%string).

(** Blank text contains only white space. *)
Definition blank (s : string) : Prop := forall c, occurs c s -> is_space c = true.

(** Texts without carriage returns and lines that fit in the buffer of the scanner. *)
Definition short (s : string) : Prop := (N.of_nat (String.length s) < 65536)%N.
Definition plain_text (s : string) : Prop := ~ occurs cr s.

(** There are no two consecutive blank lines. *)
Definition no_double_blanks (l : list string) : Prop :=
  forall a x y b, l = (a ++ x :: y :: b)%list -> ~ (blank x /\ blank y).

(** The non blank lines, in order. *)
Inductive non_blank : list string -> list string -> Prop :=
| nb_nil : non_blank [] []
| nb_skip s l r : blank s -> non_blank l r -> non_blank (s :: l) r
| nb_keep s l r : ~ blank s -> non_blank l r -> non_blank (s :: l) (s :: r).

(** Removing indentation and white space at the end. *)
Definition tabs (s : string) : Prop := forall c, occurs c s -> c = tab.
Definition cleaned (s r : string) : Prop :=
  (blank s /\ r = "") \/
  exists t u, s = (t ++ r ++ u)%string /\ tabs t /\ blank u /\
    (forall r', r <> String tab r') /\ (exists r' c, r = (r' ++ String c "")%string /\ is_space c = false).

(** Lines that open and close blocks, and comments. *)
Definition opens (s : string) : Prop := exists a b, s = (a ++ " {" ++ b)%string /\ ~ blank a /\ blank b.
Definition closes (s : string) : Prop := exists a b, s = (a ++ "}" ++ b)%string /\ blank a /\ blank b.
Definition comment (s : string) : Prop := exists a b, s = (a ++ "//" ++ b)%string /\ blank a.

(** The number of blocks that are open after some lines. *)
Inductive nesting : list string -> Z -> Prop :=
| nest_nil : nesting [] 0
| nest_open l s d : nesting l d -> opens s -> nesting (l ++ [s]) (d + 1)
| nest_close l s d : nesting l d -> closes s -> nesting (l ++ [s]) (d - 1)
| nest_other l s d : nesting l d -> ~ opens s -> ~ closes s -> nesting (l ++ [s]) d.

(** The lines that are kept: those that aren't blank, and the blank ones that are before a comment inside a
    block. *)
Definition kept (before : list string) (s next : string) : Prop :=
  ~ blank s \/ comment next /\ exists d, nesting before d /\ (0 < d)%Z.

(** The result of removing lines: each line but the last one is kept or removed. *)
Inductive tidied : list string -> list string -> Prop :=
| tidy_nil : tidied [] []
| tidy_one s : tidied [s] []
| tidy_keep a s next r : tidied (a ++ [s]) r -> kept a s next -> tidied (a ++ [s; next]) (r ++ [s])
| tidy_remove a s next r : tidied (a ++ [s]) r -> ~ kept a s next -> tidied (a ++ [s; next]) r.

(** Removing the carriage return at the end of a line. *)
Definition without_cr (s r : string) : Prop := s = (r ++ String cr "")%string \/ r = s /\ forall a, s <> (a ++ String cr "")%string.

(** Texts that are blank after their last line feed, like the templates of the generators. *)
Definition ends_blank (s : string) : Prop := blank s \/ exists a b, s = (a ++ String lf b)%string /\ blank b.

(** Several texts, each followed by a line feed. *)
Definition emitted (texts : list string) : string := String.concat "" (map (fun t => (t ++ newline)%string) texts).

(** Values of hexadecimal literals. *)
Definition digit_value (c : ascii) : option N :=
  let n := N_of_ascii c in
  if N.leb 48 n && N.leb n 57 then Some (n - 48)%N
  else if N.leb 97 n && N.leb n 102 then Some (n - 87)%N
  else None.
Fixpoint digits_value (acc : N) (s : string) : option N :=
  match s with
  | EmptyString => Some acc
  | String c r => match digit_value c with Some d => digits_value (acc * 16 + d)%N r | None => None end
  end.
Definition hex_literal (s : string) (n : N) : Prop := exists ds, s = ("0x" ++ ds)%string /\ ds <> "" /\ digits_value 0 ds = Some n.

(** The elements of an array: literals followed by commas, in lines. *)
Definition elements (l : list string) : string := String.concat "" (map (fun s => (s ++ ",")%string) l).

(** Documentation comments: the comments of the lines that are immediately before the given one. *)
Definition comment_block (c : comments) (line : nat) (block : list string) : Prop :=
  length block <= line /\
  (forall i s, nth_error block i = Some s -> comment_at c (line - length block + i) = Some s) /\
  (length block < line -> comment_at c (line - length block - 1) = None).

(** What is written in a documentation comment: lines with the same mark and indentation. *)
Definition marked (indent : string) (comment text : string) : Prop :=
  (text = "" /\ comment = "//") \/ (comment = ("//" ++ indent ++ text)%string /\ (indent ++ text)%string <> "").
Definition documented (block : list string) (doc : string) : Prop :=
  (block = [] /\ doc = "") \/
  exists indent texts first rest c r, blank indent /\ Forall2 (marked indent) block texts /\
    texts = first :: rest /\ first = String c r /\ is_space c = false /\ doc = str_join newline texts.

(** The comments that remain after using those of a block. *)
Definition consumed (c : comments) (line : nat) (block : list string) (c' : comments) : Prop :=
  forall k, comment_at c' k = if Nat.leb (line - length block) k && Nat.ltb k line then None else comment_at c k.
