(** Model of the JSON support: the Go code generated by pkg/generators/golang/json_generator.go for types,
    and the part of the jsoniter library that it uses.

    Documents are lists of tokens: the conversion between tokens and text is in JsonTextModel.v.  The
    numbers of type [float64] are converted to text and back by an oracle.  The limit of ten thousand
    levels of nesting of jsoniter isn't modelled. *)
From Coq Require Import Ascii String Bool Arith ZArith NArith List.
From Verif Require Import GoStrings GoMap NamesModel ConceptsModel ReporterModel BindingModel GoNamesModel GoTimeModel ObjectsModel.
Import ListNotations.
Local Open Scope string_scope.

(** * Tokens *)

(** JSON tokens; numbers are represented by their text, and strings by their content. *)
Inductive token :=
| TLBrace | TRBrace | TLBracket | TRBracket | TColon | TComma
| TNull | TBool (b : bool) | TNum (s : string) | TStr (s : string).

(** JSON values, as built by the generic reader of jsoniter. *)
Inductive json :=
| JNull
| JBool (b : bool)
| JNum (s : string)
| JStr (s : string)
| JArr (l : list json)
| JObj (l : list (string * json)).

(** The things that the model doesn't define: how numbers of type [float64] are converted to text (there
    is no text for infinities and not-a-number) and back, and the order of the iteration of the keys of
    maps. *)
Record oracle := MkOracle {
  format_float : Z -> option string;
  parse_float : string -> option Z;
  order : list string -> list string }.

(** * Writing *)

(** Result of writing to a stream: the tokens, an error stored in the stream, or a panic caused by a nil
    pointer. *)
Inductive written := WOk (l : list token) | WErr | WPanic.

(** Writes one thing after another.  Errors are stored in the stream and don't stop the writing. *)
Definition wcat (a b : written) : written :=
  match a, b with
  | WPanic, _ => WPanic
  | _, WPanic => WPanic
  | WOk l, WOk m => WOk (l ++ m)
  | _, _ => WErr
  end.

(** json_generator.go:799-806: the loop that writes the items of a list: all the items, with a separator
    before each one but the first; [i] is the number of the next item.  The loop of jsoniter for slices
    is equivalent. *)
Fixpoint write_items (i : nat) (l : list written) : written :=
  match l with
  | [] => WOk []
  | w :: r => wcat (if Nat.ltb 0 i then WOk [TComma] else WOk []) (wcat w (write_items (i + 1) r))
  end.

(** json_generator.go:1478-1485: the loop that writes the entries of a map, for the keys in the given
    order.  The loop of jsoniter for maps is equivalent. *)
Fixpoint write_entries (i : nat) (keys : list string) (m : list (string * written)) : written :=
  match keys with
  | [] => WOk []
  | k :: r =>
      wcat (if Nat.ltb 0 i then WOk [TComma] else WOk [])
        (wcat (WOk [TStr k; TColon]) (wcat (match mget k m with Some w => w | None => WPanic end) (write_entries (i + 1) r m)))
  end.

Section Writer.
  Context (o : oracle).

  (** [stream.WriteFloat64] *)
  Definition write_float (bits : Z) : written :=
    match format_float o bits with Some s => WOk [TNum s] | None => WErr end.

  (** [stream.WriteVal], for the values of type [interface{}] that the reader produces.  The keys of maps
      aren't sorted, because the configuration of the stream doesn't request it (json_generator.go:272-278). *)
  Fixpoint write_any (a : any) : written :=
    match a with
    | ANil => WOk [TNull]
    | ABool b => WOk [TBool b]
    | AFloat z => write_float z
    | AString s => WOk [TStr s]
    | ASlice l => wcat (WOk [TLBracket]) (wcat (write_items 0 (map write_any l)) (WOk [TRBracket]))
    | AMap l =>
        wcat (WOk [TLBrace])
          (wcat (write_entries 0 (order o (map fst l)) (map (fun '(k, x) => (k, write_any x)) l)) (WOk [TRBrace]))
    end.

  (** json_generator.go:627-662: the loop of the attributes.  [i] is the position of the next attribute,
      [n] the number of attributes, [count] the variable of the generated code, and each attribute comes
      with its value and what [generateWriteValue] writes for it. *)
  Fixpoint write_fields (v : version) (t : typ) (bits : N) (n i count : nat) (l : list (attribute * value * written)) : written :=
    match l with
    | [] => WOk []
    | (a, x, w) :: r =>
        let present :=
          has_bit bits (bit_mask t i) &&
          (match type_at (a_type a) v with Some ta => is_scalar ta | None => false end ||
           match x with VNil => false | _ => true end) in
        if present then
          wcat (if Nat.ltb 0 count then WOk [TComma] else WOk [])
            (wcat (WOk [TStr (attribute_name a); TColon])
              (wcat w (write_fields v t bits n (i + 1) (if Nat.ltb i (n - 1) then count + 1 else count) r)))
        else write_fields v t bits n (i + 1) count r
    end.

  (** json_generator.go:607-664, the function that writes objects, where [l] is what is written for the
      fields.  Types without attributes that aren't classes generate code that doesn't compile, because
      the variable [count] isn't used. *)
  Definition write_members (v : version) (t : typ) (bits : N) (id href : string) (l : list (attribute * value * written)) : written :=
    let n := length (t_attrs t) in
    wcat (WOk [TLBrace])
      (wcat
        (if is_class t then
           let count := 1 in
           wcat (WOk [TStr "kind"; TColon; TStr (if has_bit bits 1 then object_name t ++ "Link" else object_name t)])
             (wcat (if has_bit bits 2 then WOk ((if Nat.ltb 0 count then [TComma] else []) ++ [TStr "id"; TColon; TStr id]) else WOk [])
               (let count := if has_bit bits 2 then count + 1 else count in
                wcat (if has_bit bits 4 then WOk ((if Nat.ltb 0 count then [TComma] else []) ++ [TStr "href"; TColon; TStr href]) else WOk [])
                  (let count := if has_bit bits 4 && negb (Nat.eqb n 0) then count + 1 else count in
                   write_fields v t bits n 0 count l)))
         else write_fields v t bits n 0 0 l)
        (WOk [TRBrace])).

  (** json_generator.go:1438-1501, [generateWriteValue]: what the generated code writes for a value of the
      given type.  Values that don't have the type, which the Go compiler excludes, are mapped to a
      panic. *)
  Fixpoint write_value (v : version) (k : key) (link : bool) (x : value) {struct x} : written :=
    if is_builtin nBoolean k then match x with VScalar (SBool b) => WOk [TBool b] | _ => WPanic end
    else if is_builtin nInteger k then match x with VScalar (SInt z) => WOk [TNum (itoa_z z)] | _ => WPanic end
    else if is_builtin nLong k then match x with VScalar (SInt z) => WOk [TNum (itoa_z z)] | _ => WPanic end
    else if is_builtin nFloat k then match x with VScalar (SFloat z) => write_float z | _ => WPanic end
    else if is_builtin nString k then match x with VScalar (SString s) => WOk [TStr s] | _ => WPanic end
    else if is_builtin nDate k then match x with VScalar (SDate d) => WOk [TStr (format_rfc3339 d)] | _ => WPanic end
    else
      match type_at k v with
      | None => WPanic
      | Some t =>
          if is_enum t then match x with VScalar (SString s) => WOk [TStr s] | _ => WPanic end
          else if is_interface t then match x with VScalar (SAny a) => write_any a | _ => WPanic end
          else if is_struct t then
            match x with
            | VObject b =>
                write_members v t (o_bits b) (o_id b) (o_href b)
                  (zip_with (fun a y => (a, y, write_value v (a_type a) (a_link a) y)) (t_attrs t) (o_fields b))
            | _ => WPanic
            end
          else if is_list t then
            if link then
              wcat (WOk [TLBrace; TStr "items"; TColon])
                (wcat (match x with
                       | VList _ _ (VSlice l) =>
                           wcat (WOk [TLBracket]) (wcat (write_items 0 (map (write_value v (elem_key t) false) l)) (WOk [TRBracket]))
                       | VList _ _ VNil | VNil => WOk [TLBracket; TRBracket]
                       | _ => WPanic
                       end)
                  (WOk [TRBrace]))
            else
              match x with (* json_generator.go:798-808 *)
              | VSlice l =>
                  wcat (WOk [TLBracket]) (wcat (write_items 0 (map (write_value v (elem_key t) false) l)) (WOk [TRBracket]))
              | VNil => WOk [TLBracket; TRBracket]
              | _ => WPanic
              end
          else if is_map t then
            match x with
            | VMap l =>
                let keys := sort (fun a b => Z.ltb (str_compare a b) 0) (order o (map fst l)) in
                wcat (WOk [TLBrace])
                  (wcat (write_entries 0 keys (map (fun '(k, y) => (k, write_value v (elem_key t) false y)) l)) (WOk [TRBrace]))
            | VNil => WOk [TNull]
            | _ => WPanic
            end
          else WPanic
      end.

  (** json_generator.go:596-664: marshalling of an object, [None] is the nil pointer. *)
  Definition marshal_object (v : version) (t : typ) (b : option object) : written :=
    match b with
    | None => WPanic
    | Some b =>
        write_members v t (o_bits b) (o_id b) (o_href b)
          (zip_with (fun a y => (a, y, write_value v (a_type a) (a_link a) y)) (t_attrs t) (o_fields b))
    end.

  (** json_generator.go:784-808: marshalling of a list whose elements have the given type. *)
  Definition marshal_list (v : version) (e : key) (l : list value) : written :=
    wcat (WOk [TLBracket]) (wcat (write_items 0 (map (write_value v e false) l)) (WOk [TRBracket])).

  (** json_generator.go:490-497, [writeMetadata]; the metadata is the bitmap and the version of the
      server. *)
  Definition marshal_metadata (m : N * string) : written :=
    wcat (WOk [TLBrace])
      (wcat (if has_bit (fst m) 1 then WOk [TStr "server_version"; TColon; TStr (snd m)] else WOk []) (WOk [TRBrace])).
End Writer.

(** * Reading *)

(** Result of reading: the value and the tokens not read yet; an error, stored in the iterator, which
    stays there; or not enough fuel.  What is read after an error isn't modelled, because the functions
    that unmarshal return the error. *)
Inductive result (A : Type) := Ok (a : A) (rest : list token) | Failed | OutOfFuel.
Arguments Ok {A}. Arguments Failed {A}. Arguments OutOfFuel {A}.

Definition rbind {A B : Type} (r : result A) (f : A -> list token -> result B) : result B :=
  match r with Ok a rest => f a rest | Failed => Failed | OutOfFuel => OutOfFuel end.

(** [iterator.ReadObject] of jsoniter: the name of the next member, the empty string at the end. *)
Definition read_key (l : list token) : result string :=
  match l with
  | TNull :: r => Ok "" r
  | TLBrace :: TStr k :: TColon :: r => Ok k r
  | TLBrace :: TRBrace :: r => Ok "" r
  | TComma :: TStr k :: TColon :: r => Ok k r
  | TComma :: TNull :: TColon :: r => Ok "" r
  | TRBrace :: r => Ok "" r
  | _ => Failed
  end.

(** [iterator.ReadArray] of jsoniter: checks if there are more items. *)
Definition read_more (l : list token) : result bool :=
  match l with
  | TNull :: r => Ok false r
  | TLBracket :: TRBracket :: r => Ok false r
  | TLBracket :: r => Ok true r
  | TRBracket :: r => Ok false r
  | TComma :: r => Ok true r
  | _ => Failed
  end.

(** [iterator.ReadString], which accepts null. *)
Definition read_string (l : list token) : result string :=
  match l with
  | TStr s :: r => Ok s r
  | TNull :: r => Ok "" r
  | _ => Failed
  end.

(** [iterator.ReadBool] *)
Definition read_bool (l : list token) : result bool := match l with TBool b :: r => Ok b r | _ => Failed end.

(** [iterator.ReadInt] and [iterator.ReadInt64] *)
Definition read_int (l : list token) : result Z :=
  match l with
  | TNum s :: r => match parse_int s with Some z => Ok z r | None => Failed end
  | _ => Failed
  end.

(** [iterator.ReadFloat64] *)
Definition read_float (o : oracle) (l : list token) : result Z :=
  match l with
  | TNum s :: r => match parse_float o s with Some z => Ok z r | None => Failed end
  | _ => Failed
  end.

(** The generic reader of jsoniter: one value.  It is used to skip values ([iterator.ReadAny]) and to read
    values of type [interface{}] ([iterator.ReadVal]). *)
Fixpoint parse_json (n : nat) (l : list token) {struct n} : result json :=
  match n with
  | 0 => OutOfFuel
  | S n =>
      match l with
      | TNull :: r => Ok JNull r
      | TBool b :: r => Ok (JBool b) r
      | TNum s :: r => Ok (JNum s) r
      | TStr s :: r => Ok (JStr s) r
      | TLBracket :: TRBracket :: r => Ok (JArr []) r
      | TLBracket :: r => parse_items n [] r
      | TLBrace :: TRBrace :: r => Ok (JObj []) r
      | TLBrace :: TStr k :: TColon :: r => parse_members n [] k r
      | _ => Failed
      end
  end
with parse_items (n : nat) (acc : list json) (l : list token) {struct n} : result json :=
  match n with
  | 0 => OutOfFuel
  | S n =>
      rbind (parse_json n l) (fun j r =>
        match r with
        | TComma :: r => parse_items n (acc ++ [j]) r
        | TRBracket :: r => Ok (JArr (acc ++ [j])) r
        | _ => Failed
        end)
  end
with parse_members (n : nat) (acc : list (string * json)) (k : string) (l : list token) {struct n} : result json :=
  match n with
  | 0 => OutOfFuel
  | S n =>
      rbind (parse_json n l) (fun j r =>
        match r with
        | TComma :: TStr k' :: TColon :: r => parse_members n (acc ++ [(k, j)]) k' r
        | TComma :: TNull :: TColon :: r => parse_members n (acc ++ [(k, j)]) "" r
        | TRBrace :: r => Ok (JObj (acc ++ [(k, j)])) r
        | _ => Failed
        end)
  end.

(** Assigns all the entries to a map, in order. *)
Definition assign_all {A : Type} (l : list (string * A)) : list (string * A) :=
  fold_left (fun m p => mset (fst p) (snd p) m) l [].

(** The canonical representation of a map: the entries sorted by key. *)
Definition canonical {A : Type} (l : list (string * A)) : list (string * A) :=
  sort (fun a b => Z.ltb (str_compare (fst a) (fst b)) 0) l.

(** The value of type [interface{}] for a JSON value; [None] if some number isn't valid. *)
Fixpoint any_of (o : oracle) (j : json) : option any :=
  match j with
  | JNull => Some ANil
  | JBool b => Some (ABool b)
  | JNum s => option_map AFloat (parse_float o s)
  | JStr s => Some (AString s)
  | JArr l => option_map ASlice (sequence (map (any_of o) l))
  | JObj l =>
      option_map (fun m => AMap (canonical (assign_all m)))
        (sequence (map (fun '(k, x) => option_map (pair k) (any_of o x)) l))
  end.

(** The position of the first attribute with the given name in JSON documents. *)
Fixpoint find_tag (f : string) (i : nat) (l : list attribute) : option (nat * attribute) :=
  match l with
  | [] => None
  | a :: r => if String.eqb f (attribute_name a) then Some (i, a) else find_tag f (i + 1) r
  end.

Section Reader.
  Context (o : oracle) (v : version).

  (** json_generator.go:1323-1396, [generateReadValue]; json_generator.go:677-712, the function that reads
      objects; json_generator.go:818-824, the function that reads lists. *)
  Fixpoint read_value (n : nat) (k : key) (link : bool) (l : list token) {struct n} : result value :=
    match n with
    | 0 => OutOfFuel
    | S n =>
        if is_builtin nBoolean k then rbind (read_bool l) (fun b r => Ok (VScalar (SBool b)) r)
        else if is_builtin nInteger k then rbind (read_int l) (fun z r => Ok (VScalar (SInt z)) r)
        else if is_builtin nLong k then rbind (read_int l) (fun z r => Ok (VScalar (SInt z)) r)
        else if is_builtin nFloat k then rbind (read_float o l) (fun z r => Ok (VScalar (SFloat z)) r)
        else if is_builtin nString k then rbind (read_string l) (fun s r => Ok (VScalar (SString s)) r)
        else
          match type_at k v with
          | None => Failed
          | Some t =>
              if is_interface t then
                rbind (parse_json n l) (fun j r => match any_of o j with Some a => Ok (VScalar (SAny a)) r | None => Failed end)
              else if is_builtin nDate k then
                rbind (read_string l) (fun s r =>
                  match parse_rfc3339 s with Some d => Ok (VScalar (SDate d)) r | None => Failed end)
              else if is_enum t then rbind (read_string l) (fun s r => Ok (VScalar (SString s)) r)
              else if is_struct t then rbind (read_object n t (new_builder v t) l) (fun b r => Ok (VObject b) r)
              else if is_list t then
                if link then rbind (read_list n t "" false VNil l) (fun x r => Ok x r)
                else rbind (read_items n (elem_key t) [] l) (fun items r => Ok (VSlice items) r)
              else if is_map t then rbind (read_entries n (elem_key t) [] l) (fun m r => Ok (VMap (canonical m)) r)
              else Failed
          end
    end

  (** The loop that reads the members of an object. *)
  with read_object (n : nat) (t : typ) (b : object) (l : list token) {struct n} : result object :=
    match n with
    | 0 => OutOfFuel
    | S n =>
        rbind (read_key l) (fun f l =>
          if String.eqb f "" then Ok b l
          else if is_class t && String.eqb f "kind" then
            rbind (read_string l) (fun s l =>
              let bits := if String.eqb s (object_name t ++ "Link") then set_bit (o_bits b) 1 else o_bits b in
              read_object n t (MkObject bits (o_id b) (o_href b) (o_fields b)) l)
          else if is_class t && String.eqb f "id" then
            rbind (read_string l) (fun s l =>
              read_object n t (MkObject (set_bit (o_bits b) 2) s (o_href b) (o_fields b)) l)
          else if is_class t && String.eqb f "href" then
            rbind (read_string l) (fun s l =>
              read_object n t (MkObject (set_bit (o_bits b) 4) (o_id b) s (o_fields b)) l)
          else
            match find_tag f 0 (t_attrs t) with
            | Some (i, a) =>
                rbind (read_value n (a_type a) (a_link a) l) (fun x l =>
                  read_object n t
                    (MkObject (set_bit (o_bits b) (bit_mask t i)) (o_id b) (o_href b) (set_nth i x (o_fields b))) l)
            | None => rbind (parse_json n l) (fun _ l => read_object n t b l)
            end)
    end

  (** json_generator.go:1360-1376: the loop that reads lists of links. *)
  with read_list (n : nat) (t : typ) (href : string) (link : bool) (items : value) (l : list token) {struct n} : result value :=
    match n with
    | 0 => OutOfFuel
    | S n =>
        rbind (read_key l) (fun f l =>
          if String.eqb f "" then Ok (VList href link items) l
          else if String.eqb f "kind" then
            rbind (read_string l) (fun s l =>
              let te := match type_at (elem_key t) v with Some te => te | None => t end in
              read_list n t href (String.eqb s (object_name te ++ "ListLink")) items l)
          else if String.eqb f "href" then rbind (read_string l) (fun s l => read_list n t s link items l)
          else if String.eqb f "items" then
            rbind (read_items n (elem_key t) [] l) (fun m l => read_list n t href link (VSlice m) l)
          else rbind (parse_json n l) (fun _ l => read_list n t href link items l))
    end

  (** The loop that reads the items of a list. *)
  with read_items (n : nat) (e : key) (acc : list value) (l : list token) {struct n} : result (list value) :=
    match n with
    | 0 => OutOfFuel
    | S n =>
        rbind (read_more l) (fun more l =>
          if more then rbind (read_value n e false l) (fun x l => read_items n e (acc ++ [x]) l)
          else Ok acc l)
    end

  (** json_generator.go:1380-1388: the loop that reads the entries of a map. *)
  with read_entries (n : nat) (e : key) (acc : list (string * value)) (l : list token) {struct n} : result (list (string * value)) :=
    match n with
    | 0 => OutOfFuel
    | S n =>
        rbind (read_key l) (fun f l =>
          if String.eqb f "" then Ok acc l
          else rbind (read_value n e false l) (fun x l => read_entries n e (mset f x acc) l))
    end.

  (** Fuel that is enough to read the given tokens. *)
  Definition fuel (l : list token) : nat := 2 + 2 * length l.

  (** json_generator.go:666-676: unmarshalling of an object. *)
  Definition unmarshal_object (t : typ) (l : list token) : result object := read_object (fuel l) t (new_builder v t) l.

  (** json_generator.go:810-817: unmarshalling of a list whose elements have the given type. *)
  Definition unmarshal_list (e : key) (l : list token) : result (list value) := read_items (fuel l) e [] l.
End Reader.

(** json_generator.go:511-528, [readMetadata]. *)
Fixpoint read_metadata (n : nat) (m : N * string) (l : list token) {struct n} : result (N * string) :=
  match n with
  | 0 => OutOfFuel
  | S n =>
      rbind (read_key l) (fun f l =>
        if String.eqb f "" then Ok m l
        else if String.eqb f "server_version" then
          rbind (read_string l) (fun s l => read_metadata n (set_bit (fst m) 1, s) l)
        else rbind (parse_json n l) (fun _ l => read_metadata n m l))
  end.

(** json_generator.go:499-509, [UnmarshalMetadata]. *)
Definition unmarshal_metadata (l : list token) : result (N * string) := read_metadata (fuel l) (0%N, "") l.
