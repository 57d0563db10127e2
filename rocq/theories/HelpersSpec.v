(** Vocabulary used to state the properties of the helper functions. *)
From Coq Require Import Ascii String Bool Arith ZArith NArith List.
From Verif Require Import GoStrings GoMap GoTimeModel HelpersModel.
Import ListNotations.
Local Open Scope string_scope.

(** * Integers *)

(** The value of a sequence of digits. *)
Inductive decimal : string -> Z -> Prop :=
| decimal_one c : is_digit c = true -> decimal (String c "") (Z.of_nat (nat_of_ascii c) - 48)
| decimal_more s z c : decimal s z -> is_digit c = true -> decimal (s ++ String c "") (10 * z + (Z.of_nat (nat_of_ascii c) - 48)).

(** Integers with an optional sign. *)
Definition signed_decimal (s : string) (z : Z) : Prop :=
  decimal s z \/ (exists r, s = String "+" r /\ decimal r z) \/ (exists r y, s = String "-" r /\ decimal r y /\ z = (- y)%Z).

(** * Dates *)

(** Dates that exist. *)
Definition valid_date (d : date) : Prop :=
  (1 <= d_month d <= 12)%Z /\ (1 <= d_day d <= days_in (d_year d) (d_month d))%Z /\
  (0 <= d_hour d < 24)%Z /\ (0 <= d_minute d < 60)%Z /\ (0 <= d_second d < 60)%Z.

Definition leap (y : Z) : bool := Z.eqb (y mod 4) 0 && (negb (Z.eqb (y mod 100) 0) || Z.eqb (y mod 400) 0).

(** Number of days since the start of the proleptic Gregorian calendar. *)
Definition ordinal (y m d : Z) : Z :=
  (365 * (y - 1) + (y - 1) / 4 - (y - 1) / 100 + (y - 1) / 400 +
   nth (Z.to_nat m - 1) [0; 31; 59; 90; 120; 151; 181; 212; 243; 273; 304; 334] 0 +
   (if Z.ltb 2 m && leap y then 1 else 0) + d)%Z.

(** Number of seconds since the start of the calendar, in UTC. *)
Definition instant (d : date) : Z :=
  (ordinal (d_year d) (d_month d) (d_day d) * 86400 + d_hour d * 3600 + d_minute d * 60 + d_second d - d_offset d)%Z.

(** * Memory *)

(** The slice is inside of an existing array. *)
Definition slice_valid (h : heap) (s : slice) : Prop :=
  match s with
  | SliceNil => True
  | Slice a off len cap => a < length (h_arrays h) /\ len <= cap /\ off + cap <= length (array_at h a)
  end.

(** The map exists, its keys are different and its slices are valid. *)
Definition valid (h : heap) (m : nat) : Prop :=
  m < length (h_maps h) /\ NoDup (map fst (map_at h m)) /\ Forall (fun p => slice_valid h (snd p)) (map_at h m).

(** The array of a slice. *)
Definition in_array (s : slice) (a : nat) : Prop := exists off len cap, s = Slice a off len cap.

(** Two maps don't share arrays. *)
Definition disjoint (h : heap) (m n : nat) : Prop :=
  forall p q a, In p (map_at h m) -> In q (map_at h n) -> in_array (snd p) a -> in_array (snd q) a -> False.

(** The names of a map don't share arrays. *)
Definition separate (h : heap) (m : nat) : Prop :=
  forall p q a, In p (map_at h m) -> In q (map_at h m) -> in_array (snd p) a -> in_array (snd q) a -> fst p = fst q.

(** What the program sees: the names with their values; nil slices are different from empty slices. *)
Definition observe (h : heap) (s : slice) : option (list string) :=
  match s with SliceNil => None | _ => Some (slice_values h s) end.
Definition contents (h : heap) (m : nat) : list (string * option (list string)) :=
  map (fun p => (fst p, observe h (snd p))) (map_at h m).

(** The values of a name. *)
Definition values_at (h : heap) (m : nat) (name : string) : list string := slice_values h (lookup h m name).

(** The query parameters that the server sees when the client sends a map. *)
Definition query_of (h : heap) (m : nat) : query := map (fun p => (fst p, slice_values h (snd p))) (map_at h m).

(** The things that a program can do with a map: add a value, change one element of the values of a name,
    delete a name and replace the values of a name. *)
Inductive op :=
| OpAdd (spare : nat) (name x : string)
| OpChange (name : string) (i : nat) (x : string)
| OpDelete (name : string)
| OpReplace (name : string) (l : list string).

Definition run_op (h : heap) (m : nat) (o : op) : heap :=
  match o with
  | OpAdd spare name x => values_add spare h m name x
  | OpChange name i x => slice_set h (lookup h m name) i x
  | OpDelete name => set_map m (mdel name (map_at h m)) h
  | OpReplace name l => let '(h, a) := new_array l h in assign h m name (Slice a 0 (length l) (length l))
  end.
Definition run (h : heap) (m : nat) (l : list op) : heap := fold_left (fun h o => run_op h m o) l h.

(** * Segments *)

Fixpoint slashes (n : nat) : string := match n with 0 => "" | S n => String "/" (slashes n) end.

(** Segments of paths: not empty and without slashes. *)
Definition segment (s : string) : Prop := s <> "" /\ str_all (fun c => negb (Ascii.eqb c "/")) s = true.

(** * Polling *)

Section Polling.
  Context (W R E : Type) (task : W -> Z * option R * option E * W) (now : W -> Z) (sleep : Z -> W -> W).

  (** What an attempt returns. *)
  Definition attempt_status (w : W) : Z := fst (fst (fst (task w))).
  Definition attempt_result (w : W) : option R := snd (fst (fst (task w))).
  Definition attempt_error (w : W) : option E := snd (fst (task w)).
  Definition after_attempt (w : W) : W := snd (task w).

  (** The attempt failed without status. *)
  Definition broken (w : W) : Prop := attempt_error w <> None /\ attempt_status w = 0%Z.

  (** The attempt has one of the expected statuses, success if there are none, and satisfies all the
      predicates. *)
  Definition accepted (statuses : list Z) (predicates : list (R -> bool)) (w : W) : Prop :=
    (In (attempt_status w) statuses \/ statuses = [] /\ attempt_status w = 200%Z) /\
    (predicates = [] \/ exists r, attempt_result w = Some r /\ forall p, In p predicates -> p r = true).

  (** There is no time for another attempt after this one. *)
  Definition late (deadline interval : Z) (w : W) : Prop := (deadline < now (after_attempt w) + interval)%Z.

  (** Each attempt but the last one is followed by the next after sleeping. *)
  Fixpoint chained (interval : Z) (l : list W) : Prop :=
    match l with
    | w :: (x :: _) as r => x = sleep interval (after_attempt w) /\ chained interval r
    | _ => True
    end.
End Polling.
