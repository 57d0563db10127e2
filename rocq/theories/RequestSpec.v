(** Vocabulary used to state the properties of the requests: how a server reads the query of a URL, and what a request should
    contain. *)
From Coq Require Import Ascii String Bool Arith ZArith NArith List.
From Verif Require Import GoStrings GoMap NamesModel ConceptsModel ReporterModel BindingModel GoNamesModel GoTimeModel ObjectsModel ObjectsSpec JsonModel
  JsonSpec ChecksSpec BindingSpec HelpersModel HelpersSpec ClientsModel ApiErrorModel RequestModel.
Import ListNotations.
Local Open Scope string_scope.

(** * Queries of URLs *)

(** The value of an hexadecimal digit. *)
Definition hex_value (c : ascii) : option N :=
  let n := N_of_ascii c in
  if N.leb 48 n && N.leb n 57 then Some (n - 48)%N
  else if N.leb 65 n && N.leb n 70 then Some (n - 55)%N
  else if N.leb 97 n && N.leb n 102 then Some (n - 87)%N
  else None.

(** Percent decoding, where the plus sign is a space. *)
Fixpoint query_unescape (s : string) : option string :=
  match s with
  | "" => Some ""
  | String "%" (String a (String b r)) =>
      match hex_value a, hex_value b, query_unescape r with
      | Some x, Some y, Some r => Some (String (ascii_of_N (16 * x + y)) r)
      | _, _, _ => None
      end
  | String "%" _ => None
  | String "+" r => option_map (String " ") (query_unescape r)
  | String c r => option_map (String c) (query_unescape r)
  end.

(** The text before and after the first equals sign. *)
Fixpoint cut_equals (s : string) : string * string :=
  match s with
  | "" => ("", "")
  | String c r => if Ascii.eqb c "=" then ("", r) else let (a, b) := cut_equals r in (String c a, b)
  end.

(** One of the parts of a query; semicolons aren't allowed. *)
Definition parse_pair (s : string) : option (string * string) :=
  let (a, b) := cut_equals s in
  if str_all (fun c => negb (Ascii.eqb c ";")) s then
    match query_unescape a, query_unescape b with Some k, Some x => Some (k, x) | _, _ => None end
  else None.

(** All the parts, in order. *)
Fixpoint parse_pairs (l : list string) : option (list (string * string)) :=
  match l with
  | [] => Some []
  | s :: l =>
      match parse_pair s, parse_pairs l with Some p, Some r => Some (p :: r) | _, _ => None end
  end.

(** The names and values of a query: the parts between ampersands, the empty ones are ignored. *)
Definition parse_query (s : string) : option (list (string * string)) :=
  parse_pairs (filter (fun s => negb (String.eqb s "")) (str_split "&" s)).

(** The values of a name. *)
Definition named (n : string) (l : list (string * string)) : list string :=
  map snd (filter (fun p => String.eqb (fst p) n) l).

(** The characters that appear in the queries: letters, digits and punctuation that don't have another meaning in a URL. *)
Definition query_char (c : ascii) : bool :=
  let n := nat_of_ascii c in
  (Nat.leb 48 n && Nat.leb n 57) || (Nat.leb 65 n && Nat.leb n 90) || (Nat.leb 97 n && Nat.leb n 122) ||
  existsb (Ascii.eqb c) ["-"; "_"; "."; "~"; "+"; "%"; "&"; "="]%char.

(** * Memory *)

(** The maps and arrays that existed aren't changed. *)
Definition preserves (h h' : heap) : Prop :=
  length (h_arrays h) <= length (h_arrays h') /\ length (h_maps h) <= length (h_maps h') /\
  (forall m, m < length (h_maps h) -> map_at h' m = map_at h m) /\
  (forall a, a < length (h_arrays h) -> array_at h' a = array_at h a).

(** The maps of the request exist. *)
Definition request_valid (h : heap) (r : request) : Prop :=
  (forall m, rq_query r = Some m -> valid h m) /\ (forall m, rq_header r = Some m -> valid h m).

(** The values of a name in a map that may be nil. *)
Definition values_in (h : heap) (q : option nat) (n : string) : list string :=
  match q with Some m => values_at h m n | None => [] end.

(** * What should be sent *)

(** The text of the value of a scalar parameter. *)
Definition scalar_text (show_float : Z -> string) (show_any : any -> string) (s : scalar) : string :=
  match s with
  | SBool b => if b then "true" else "false"
  | SInt z => itoa_z z
  | SFloat z => show_float z
  | SString s => s
  | SDate d => format_rfc3339 (utc d)
  | SAny a => show_any a
  end.

(** The texts of the parameters of the method that are sent with the given name. *)
Fixpoint parameter_texts (show_float : Z -> string) (show_any : any -> string) (v : version) (fs : list (string * value)) (n : string)
  (l : list parameter) : list string :=
  match l with
  | [] => []
  | p :: l =>
      ((if p_in p && scalar_in v p && String.eqb (query_parameter_name p) n then
          match mget (client_field p) fs with Some (VScalar s) => [scalar_text show_float show_any s] | _ => [] end
        else []) ++ parameter_texts show_float show_any v fs n l)%list
  end.

(** * Bodies *)

(** What the generated code writes for a value that doesn't lose anything when it is written. *)
Definition represents (o : oracle) (v : version) (k : key) (x : value) (j : json) : Prop :=
  typed v k false x /\ x <> VNil /\ lossless v k x /\ write_value o v k false x = WOk (tokens j).

(** The members of the body of an action: one for each parameter that isn't nil, in order. *)
Fixpoint shows_parameters (o : oracle) (v : version) (fs : list (string * value)) (l : list parameter) (ms : list (string * json)) : Prop :=
  match l with
  | [] => ms = []
  | p :: l =>
      match mget (go_private (p_name p)) fs with
      | None | Some VNil => shows_parameters o v fs l ms
      | Some x => exists j ms', ms = (body_parameter_name p, j) :: ms' /\ shows o v (p_type p) x j /\ shows_parameters o v fs l ms'
      end
  end.

(** The values of the fields are of the types of the parameters. *)
Definition fields_typed (v : version) (fs : list (string * value)) (l : list parameter) : Prop :=
  forall p x, In p l -> mget (go_private (p_name p)) fs = Some x -> x = VNil \/ typed v (p_type p) false x.

(** The methods where the body of the request, or the one of the response, is the value of one parameter. *)
Definition body_methods : list (list string) := [["add"]; ["update"]; ["async"; "update"]].
Definition request_whole (m : method) (p : parameter) : Prop :=
  (exists ws, In ws body_methods /\ called ws (m_name m) /\ first_called ["body"] (m_params m) p) \/
  (called ["post"] (m_name m) /\ filter p_in (m_params m) = [p]) \/
  (called ["search"] (m_name m) /\ filter (fun p => name_equals (Some (p_name p)) (Some nBody)) (m_params m) = [p]).
Definition response_whole (m : method) (p : parameter) : Prop :=
  (exists ws, In ws (["get"] :: body_methods) /\ called ws (m_name m) /\ first_called ["body"] (m_params m) p) \/
  (called ["post"] (m_name m) /\ filter p_out (m_params m) = [p]).

(** The methods where the body of the response is an object with one member for each parameter. *)
Definition response_object (m : method) : Prop := called ["list"] (m_name m) \/ called ["search"] (m_name m) \/ action m.

(** The parameter is the list of items of the response. *)
Definition listed (m : method) (p : parameter) : Prop := ~ action m /\ called ["items"] (p_name p).

(** The name of the member for a parameter. *)
Definition member_for (m : method) (p : parameter) (f : string) : Prop :=
  (listed m p /\ f = "items") \/ (~ listed m p /\ f = body_parameter_name p).

(** The parameters of the response. *)
Definition response_parameter (m : method) (p : parameter) : Prop :=
  In p (m_params m) /\ p_out p = true /\ (called ["search"] (m_name m) -> ~ called ["body"] (p_name p)).

(** The generated code compiles and has one case for each parameter of the response: the names are different, and the parameters
    that have a special treatment are part of the response. *)
Definition separable (m : method) : Prop :=
  (forall p q, In p (m_params m) -> In q (m_params m) -> n_words (p_name p) = n_words (p_name q) -> p = q) /\
  (forall p q f, response_parameter m p -> response_parameter m q -> member_for m p f -> member_for m q f -> p = q) /\
  (forall p q, response_parameter m p -> response_parameter m q -> go_private (p_name p) = go_private (p_name q) -> p = q) /\
  (~ action m -> forall p ws, In p (m_params m) -> In ws [["page"]; ["size"]; ["total"]; ["items"]] -> called ws (p_name p) ->
    response_parameter m p).

(** The type of the parameter is a list of scalars. *)
Definition scalar_items (v : version) (p : parameter) : Prop :=
  exists t e te, mget (p_type p) (v_types v) = Some t /\ t_kind t = ListType /\ t_element t = Some e /\
    mget e (v_types v) = Some te /\ In (t_kind te) [ScalarType; EnumType; InterfaceType].

(** The value of a parameter of the response: the items, unless they are scalars, are inside of an object. *)
Definition received (v : version) (m : method) (p : parameter) (y z : value) : Prop :=
  (listed m p /\ ~ scalar_items v p -> z = VList "" false y) /\ (~ (listed m p /\ ~ scalar_items v p) -> z = y).
