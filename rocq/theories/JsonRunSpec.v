(** The meaning of the Go code that reads and writes JSON documents: an interpreter for the statements of JsonCodeModel.v.

    It gives the meaning of the language (blocks, variables, assignments, loops, calls, nil pointers), and of the functions of the libraries that
    the code uses. It doesn't know anything about the model: the functions, the constants and the structures are given.

    Simplifications:
    - A pointer to a structure is the structure: the code never has two variables for the same one that it changes.
    - The integers have no limits: the only ones that are calculated are positions.
    - The entries of a map don't have an order: when one is assigned they are sorted by key, so that two maps with the same entries are equal.
    - Execution ends when the iterator finds an error: the real code goes on, and returns the error that the iterator stores.
    - The writers and the readers never fail. *)
From Coq Require Import Ascii String Bool Arith ZArith NArith List.
From Verif Require Import GoStrings GoMap NamesModel ConceptsModel ReporterModel BindingModel GoNamesModel GoTimeModel DeclsModel ChecksModel ObjectsModel JsonModel JsonCodeModel.
From Verif Require ObjectsSpec GoTypesSpec JsonCodeSpec.
Import ListNotations.
Local Open Scope string_scope.

(** * Values *)

(** Values of the variables. [RPtr] is a pointer to a value that isn't a structure; [RStruct] a pointer to a structure; [RTuple] the results of a
    function that has none or several. *)
Inductive gv :=
| RNil
| RBool (b : bool)
| RInt (z : Z)
| RFloat (bits : Z)
| RString (s : string)
| RDate (d : date)
| RAny (a : any)
| RBits (n : N)
| RPtr (g : gv)
| RStruct (l : list (string * gv))
| RSlice (l : list gv)
| RMap (l : list (string * gv))
| RStream
| RIterator
| RWriter
| RSource
| RError
| RTuple (l : list gv).

(** What has been written to the stream, and what hasn't been read yet. *)
Record state := MkState { st_out : written; st_in : list token }.

(** The ways in which a program can end without a result: a nil pointer or an index out of range, a wrong document, something that the rules of the
    language don't allow, and not enough steps. *)
Inductive ending := Panic | WrongDocument | NotAllowed | MoreSteps.

(** The blocks, from the inner one to the outer one, with their variables. *)
Definition frames := list (list (string * gv)).

Inductive answer := Gives (g : gv) (s : state) | Ends (x : ending).
Inductive flow := Next (e : frames) (s : state) | Breaks (e : frames) (s : state) | Returns (l : list gv) (e : frames) (s : state) | Stops (x : ending).

Fixpoint lookup (e : frames) (x : string) : option gv :=
  match e with [] => None | f :: r => match mget x f with Some g => Some g | None => lookup r x end end.
Fixpoint update (e : frames) (x : string) (g : gv) : option frames :=
  match e with
  | [] => None
  | f :: r => match mget x f with Some _ => Some (mset x g f :: r) | None => match update r x g with Some r => Some (f :: r) | None => None end end
  end.
(** Declares a variable in the inner block; if it is already there it is assigned. *)
Definition define (e : frames) (x : string) (g : gv) : frames := match e with [] => [[(x, g)]] | f :: r => mset x g f :: r end.
Fixpoint define_all (e : frames) (xs : list string) (gs : list gv) : option frames :=
  match xs, gs with
  | [], [] => Some e
  | x :: xs, g :: gs => define_all (define e x g) xs gs
  | _, _ => None
  end.

(** The results of a call. *)
Definition results (g : gv) : list gv := match g with RTuple l => l | g => [g] end.
Definition result_of (l : list gv) : gv := match l with [g] => g | l => RTuple l end.

Definition unit_value : gv := RTuple [].
Definition outputs (w : written) (s : state) : answer := Gives unit_value (MkState (wcat (st_out s) w) (st_in s)).
Definition inputs {A : Type} (r : result A) (f : A -> gv) (s : state) : answer :=
  match r with Ok a l => Gives (f a) (MkState (st_out s) l) | Failed => Ends WrongDocument | OutOfFuel => Ends MoreSteps end.

Section Run.
  (** The constants, the fields that the structures have when they are created, the number of iterations that loops can have, and what the calls to
      the generated functions do. *)
  Context (o : oracle) (constants : list (string * string)) (structures : string -> option (list (string * gv))) (limit : nat).
  Context (call : string -> list gv -> state -> answer).

  (** The methods of the streams and iterators of jsoniter, and [Items] of the lists (types_generator.go:524-530). *)
  Definition method_of (g : gv) (m : string) (args : list gv) (s : state) : answer :=
    match g with
    | RStream =>
        if String.eqb m "WriteBool" then match args with [RBool b] => outputs (WOk [TBool b]) s | _ => Ends NotAllowed end
        else if String.eqb m "WriteInt" || String.eqb m "WriteInt64" then match args with [RInt z] => outputs (WOk [TNum (itoa_z z)]) s | _ => Ends NotAllowed end
        else if String.eqb m "WriteFloat64" then match args with [RFloat z] => outputs (write_float o z) s | _ => Ends NotAllowed end
        else if String.eqb m "WriteString" then match args with [RString x] => outputs (WOk [TStr x]) s | _ => Ends NotAllowed end
        else if String.eqb m "WriteVal" then match args with [RAny a] | [RPtr (RAny a)] => outputs (write_any o a) s | _ => Ends NotAllowed end
        else if String.eqb m "WriteObjectField" then match args with [RString x] => outputs (WOk [TStr x; TColon]) s | _ => Ends NotAllowed end
        else if String.eqb m "WriteNil" then outputs (WOk [TNull]) s
        else if String.eqb m "WriteMore" then outputs (WOk [TComma]) s
        else if String.eqb m "WriteObjectStart" then outputs (WOk [TLBrace]) s
        else if String.eqb m "WriteObjectEnd" then outputs (WOk [TRBrace]) s
        else if String.eqb m "WriteArrayStart" then outputs (WOk [TLBracket]) s
        else if String.eqb m "WriteArrayEnd" then outputs (WOk [TRBracket]) s
        else if String.eqb m "Flush" then Gives (match st_out s with WOk _ => RNil | _ => RError end) s
        else Ends NotAllowed
    | RIterator =>
        if String.eqb m "ReadBool" then inputs (read_bool (st_in s)) RBool s
        else if String.eqb m "ReadInt" || String.eqb m "ReadInt64" then inputs (read_int (st_in s)) RInt s
        else if String.eqb m "ReadFloat64" then inputs (read_float o (st_in s)) RFloat s
        else if String.eqb m "ReadString" then inputs (read_string (st_in s)) RString s
        else if String.eqb m "ReadObject" then inputs (read_key (st_in s)) RString s
        else if String.eqb m "ReadArray" then inputs (read_more (st_in s)) RBool s
        else if String.eqb m "ReadAny" then inputs (parse_json limit (st_in s)) (fun _ => unit_value) s
        else if String.eqb m "ReportError" then Ends WrongDocument
        else Ends NotAllowed
    | RDate d => if String.eqb m "Format" then Gives (RString (format_rfc3339 d)) s else Ends NotAllowed
    | RError => if String.eqb m "Error" then Gives (RString "") s else Ends NotAllowed
    | RNil => if String.eqb m "Items" then Gives RNil s else Ends Panic
    | RStruct l => if String.eqb m "Items" then match mget "items" l with Some g => Gives g s | None => Ends NotAllowed end else Ends NotAllowed
    | _ => Ends NotAllowed
    end.

  Definition not_nil (g : gv) : bool := match g with RNil | RAny ANil => false | _ => true end.

  (** The value of an expression. *)
  Fixpoint eval (e : frames) (s : state) (x : jexpr) {struct x} : answer :=
    let evals := fix evals (s : state) (l : list jexpr) : answer :=
      match l with
      | [] => Gives (RTuple []) s
      | a :: r =>
          match eval e s a with
          | Gives g s => match evals s r with Gives (RTuple gs) s => Gives (RTuple (g :: gs)) s | Gives _ _ => Ends NotAllowed | Ends x => Ends x end
          | Ends x => Ends x
          end
      end in
    match x with
    | XVar n => match lookup e n with Some g => Gives g s | None => Ends NotAllowed end
    | XName n => if String.eqb n "time.RFC3339" then Gives (RString "2006-01-02T15:04:05Z07:00") s else
        match mget n constants with Some c => Gives (RString c) s | None => Ends NotAllowed end
    | XZero => Gives (RInt 0) s
    | XText t => Gives (RString t) s
    | XNil => Gives RNil s
    | XField a f =>
        match eval e s a with
        | Gives (RStruct l) s => match mget f l with Some g => Gives g s | None => Ends NotAllowed end
        | Gives RNil _ => Ends Panic
        | Gives RStream s => Gives (match st_out s with WOk _ => RNil | _ => RError end) s
        | Gives RIterator s => Gives RNil s
        | Gives _ _ => Ends NotAllowed
        | Ends x => Ends x
        end
    | XDeref a => match eval e s a with Gives (RPtr g) s => Gives g s | Gives RNil _ => Ends Panic | Gives _ _ => Ends NotAllowed | Ends x => Ends x end
    | XAddr n => match lookup e n with Some g => Gives (RPtr g) s | None => Ends NotAllowed end
    | XCall f l => match evals s l with Gives (RTuple gs) s => call f gs s | Gives _ _ => Ends NotAllowed | Ends x => Ends x end
    | XMethod a m l =>
        match eval e s a with
        | Gives g s => match evals s l with Gives (RTuple gs) s => method_of g m gs s | Gives _ _ => Ends NotAllowed | Ends x => Ends x end
        | Ends x => Ends x
        end
    | XConvert _ a => match eval e s a with Gives (RString t) s => Gives (RString t) s | Gives _ _ => Ends NotAllowed | Ends x => Ends x end
    | XEmpty t => Gives (if String.prefix "map[" t then RMap [] else RSlice []) s
    | XNew t => match structures t with Some l => Gives (RStruct l) s | None => Ends NotAllowed end
    | XNewItems t a =>
        match eval e s a with
        | Gives g s => match structures t with Some l => Gives (RStruct (mset "items" g l)) s | None => Ends NotAllowed end
        | Ends x => Ends x
        end
    | XMake _ a => match eval e s a with Gives (RInt z) s => Gives (RSlice (repeat (RString "") (Z.to_nat z))) s | Gives _ _ => Ends NotAllowed | Ends x => Ends x end
    | XLen a =>
        match eval e s a with
        | Gives (RSlice l) s => Gives (RInt (Z.of_nat (length l))) s
        | Gives (RMap l) s => Gives (RInt (Z.of_nat (length l))) s
        | Gives RNil s => Gives (RInt 0) s
        | Gives _ _ => Ends NotAllowed
        | Ends x => Ends x
        end
    | XAppend a b =>
        match eval e s a with
        | Gives (RSlice l) s => match eval e s b with Gives g s => Gives (RSlice (l ++ [g])) s | Ends x => Ends x end
        | Gives _ _ => Ends NotAllowed
        | Ends x => Ends x
        end
    | XIndex a i =>
        match eval e s a with
        | Gives (RMap l) s =>
            match eval e s i with
            | Gives (RString k) s => match mget k l with Some g => Gives g s | None => Ends NotAllowed end
            | Gives _ _ => Ends NotAllowed
            | Ends x => Ends x
            end
        | Gives _ _ => Ends NotAllowed
        | Ends x => Ends x
        end
    | XBit a m => match eval e s a with Gives (RBits n) s => Gives (RBool (negb (N.eqb (N.land n (Z.to_N m)) 0))) s | Gives _ _ => Ends NotAllowed | Ends x => Ends x end
    | XNotNil a => match eval e s a with Gives g s => Gives (RBool (not_nil g)) s | Ends x => Ends x end
    | XEqual a b =>
        match eval e s a with
        | Gives (RString x) s => match eval e s b with Gives (RString y) s => Gives (RBool (String.eqb x y)) s | Gives _ _ => Ends NotAllowed | Ends x => Ends x end
        | Gives _ _ => Ends NotAllowed
        | Ends x => Ends x
        end
    | XPositive a => match eval e s a with Gives (RInt z) s => Gives (RBool (Z.ltb 0 z)) s | Gives _ _ => Ends NotAllowed | Ends x => Ends x end
    | XAnd a b =>
        match eval e s a with
        | Gives (RBool true) s => eval e s b
        | Gives (RBool false) s => Gives (RBool false) s
        | Gives _ _ => Ends NotAllowed
        | Ends x => Ends x
        end
    end.

  (** Assigns a value to a variable, to a field of the structure of a variable, or to an element of the slice or map of a variable. *)
  Definition store (e : frames) (target : jexpr) (g : gv) : frames + ending :=
    let put x g := match update e x g with Some e => inl e | None => inr NotAllowed end in
    match target with
    | XVar x => put x g
    | XField (XVar x) f =>
        match lookup e x with
        | Some (RStruct l) => match mget f l with Some _ => put x (RStruct (mset f g l)) | None => inr NotAllowed end
        | Some RNil => inr Panic
        | _ => inr NotAllowed
        end
    | XIndex (XVar x) (XVar i) =>
        match lookup e x, lookup e i with
        | Some (RSlice l), Some (RInt z) => if (Z.leb 0 z && (Z.to_nat z <? length l)%nat)%bool then put x (RSlice (set_nth (Z.to_nat z) g l)) else inr Panic
        | Some (RMap l), Some (RString k) => put x (RMap (canonical (mset k g l)))
        | Some RNil, Some (RString _) => inr Panic
        | _, _ => inr NotAllowed
        end
    | _ => inr NotAllowed
    end.
  Fixpoint store_all (e : frames) (targets : list jexpr) (gs : list gv) : frames + ending :=
    match targets, gs with
    | [], [] => inl e
    | t :: ts, g :: gs => match store e t g with inl e => store_all e ts gs | inr x => inr x end
    | _, _ => inr NotAllowed
    end.

  Definition continue (r : frames + ending) (s : state) : flow := match r with inl e => Next e s | inr x => Stops x end.
  Definition leave (f : flow) : flow :=
    match f with Next e s => Next (tl e) s | Breaks e s => Breaks (tl e) s | Returns l e s => Returns l (tl e) s | Stops x => Stops x end.
  Definition zero_of_type (t : string) : gv := if String.eqb t "bool" then RBool false else if String.eqb t "interface{}" then RAny ANil else RNil.
  Definition as_string (g : gv) : string := match g with RString s => s | _ => "" end.
  (** The setters of the lists (types_generator.go:509-522), that change the list. *)
  Definition setter_field (m : string) : option string :=
    if String.eqb m "SetLink" then Some "link" else if String.eqb m "SetHREF" then Some "href" else if String.eqb m "SetItems" then Some "items" else None.

  (** Loops: each iteration is a flow that depends on the variables and on the state. *)
  Fixpoint loop (n : nat) (e : frames) (s : state) (body : frames -> state -> flow) : flow :=
    match n with
    | 0 => Stops MoreSteps
    | S n =>
        match body e s with
        | Next e s => loop n e s body
        | Breaks e s => Next e s
        | f => f
        end
    end.
  Fixpoint each {A : Type} (l : list A) (e : frames) (s : state) (body : A -> frames -> state -> flow) : flow :=
    match l with
    | [] => Next e s
    | a :: r =>
        match body a e s with
        | Next e s => each r e s body
        | Breaks e s => Next e s
        | f => f
        end
    end.
  Fixpoint numbered {A : Type} (i : Z) (l : list A) : list (Z * A) := match l with [] => [] | a :: r => (i, a) :: numbered (i + 1) r end.

  (** A call that is a statement; some of them change variables. *)
  Definition perform (e : frames) (s : state) (a : jexpr) : flow :=
    let simple := match eval e s a with Gives _ s => Next e s | Ends x => Stops x end in
    match a with
    | XMethod (XVar i) m [XAddr x] =>
        if String.eqb m "ReadVal" then
          match parse_json limit (st_in s) with
          | Ok j r => match any_of o j with Some a => continue (store e (XVar x) (RAny a)) (MkState (st_out s) r) | None => Stops WrongDocument end
          | Failed => Stops WrongDocument
          | OutOfFuel => Stops MoreSteps
          end
        else Stops NotAllowed
    | XMethod (XVar x) m [a] =>
        match setter_field m with
        | Some f => match eval e s a with Gives g s => continue (store e (XField (XVar x) f) g) s | Ends x => Stops x end
        | None => simple
        end
    | XCall f [XVar x] =>
        if String.eqb f "sort.Strings" then
          match lookup e x with
          | Some (RSlice l) => continue (store e (XVar x) (RSlice (map RString (sort (fun a b => Z.ltb (str_compare a b) 0) (map as_string l))))) s
          | _ => Stops NotAllowed
          end
        else simple
    | _ => simple
    end.

  (** A statement. *)
  Fixpoint exec (e : frames) (s : state) (t : stm) {struct t} : flow :=
    let block := fix block (e : frames) (s : state) (l : list stm) : flow :=
      match l with [] => Next e s | t :: r => match exec e s t with Next e s => block e s r | f => f end end in
    let inner (e : frames) (s : state) (l : list stm) : flow := leave (block ([] :: e) s l) in
    match t with
    | TDefine xs a =>
        match eval e s a with
        | Gives g s => match define_all e xs (match xs with [_] => [g] | _ => results g end) with Some e => Next e s | None => Stops NotAllowed end
        | Ends x => Stops x
        end
    | TVar x t => Next (define e x (zero_of_type t)) s
    | TAssign ts a =>
        match eval e s a with
        | Gives g s => continue (store_all e ts (match ts with [_] => [g] | _ => results g end)) s
        | Ends x => Stops x
        end
    | TOrBits a m =>
        match eval e s a with
        | Gives (RBits n) s => continue (store e a (RBits (N.lor n (Z.to_N m)))) s
        | Gives _ _ => Stops NotAllowed
        | Ends x => Stops x
        end
    | TDo a => perform e s a
    | TInc x => match lookup e x with Some (RInt z) => continue (store e (XVar x) (RInt (z + 1))) s | _ => Stops NotAllowed end
    | TIf c a b =>
        match eval e s c with
        | Gives (RBool true) s => inner e s a
        | Gives (RBool false) s => inner e s b
        | Gives _ _ => Stops NotAllowed
        | Ends x => Stops x
        end
    | TFor l => loop limit e s (fun e s => inner e s l)
    | TWhile c l =>
        loop limit e s (fun e s =>
          match eval e s c with
          | Gives (RBool true) s => inner e s l
          | Gives (RBool false) s => Breaks e s
          | Gives _ _ => Stops NotAllowed
          | Ends x => Stops x
          end)
    | TRange [x] a l =>
        match eval e s a with
        | Gives (RMap m) s => each (order o (map fst m)) e s (fun k e s => leave (inner ([(x, RString k)] :: e) s l))
        | Gives RNil s => Next e s
        | Gives _ _ => Stops NotAllowed
        | Ends x => Stops x
        end
    | TRange [x; y] a l =>
        match eval e s a with
        | Gives (RSlice m) s => each (numbered 0 m) e s (fun p e s => leave (inner ([(x, RInt (fst p)); (y, snd p)] :: e) s l))
        | Gives RNil s => Next e s
        | Gives _ _ => Stops NotAllowed
        | Ends x => Stops x
        end
    | TRange _ _ _ => Stops NotAllowed
    | TSwitch a cases l =>
        match eval e s a with
        | Gives (RString x) s =>
            (fix pick (cs : list (string * list stm)) : flow :=
               match cs with
               | [] => inner e s l
               | (c, b) :: r => if String.eqb x c then inner e s b else pick r
               end) cases
        | Gives _ _ => Stops NotAllowed
        | Ends x => Stops x
        end
    | TBreak => Breaks e s
    | TReturn [] => Returns [] e s
    | TReturn [a] => match eval e s a with Gives g s => Returns (results g) e s | Ends x => Stops x end
    | TReturn _ => Stops NotAllowed
    end.
  Definition block : frames -> state -> list stm -> flow :=
    fix block (e : frames) (s : state) (l : list stm) : flow :=
      match l with [] => Next e s | t :: r => match exec e s t with Next e s => block e s r | f => f end end.

  (** A function: the parameters and the results that have a name are variables of the block of the body. *)
  Definition run_function (fn : func) (args : list gv) (s : state) : answer :=
    match define_all [map (fun p => (fst p, zero_of_type (snd p))) (filter (fun p => negb (String.eqb (fst p) "")) (fn_results fn))] (map fst (fn_params fn)) args with
    | None => Ends NotAllowed
    | Some e =>
        match block e s (fn_body fn) with
        | Next _ s => match fn_results fn with [] => Gives unit_value s | _ => Ends NotAllowed end
        | Returns [] e s =>
            match sequence (map (fun p => lookup e (fst p)) (fn_results fn)) with Some gs => Gives (result_of gs) s | None => Ends NotAllowed end
        | Returns gs _ s => if (length gs =? length (fn_results fn))%nat then Gives (result_of gs) s else Ends NotAllowed
        | Breaks _ _ => Ends NotAllowed
        | Stops x => Ends x
        end
    end.
End Run.

(** A call to one of the functions of a package; [n] limits the depth of the calls and the number of iterations of each loop. *)
Section Call.
  Context (o : oracle) (constants : list (string * string)) (structures : string -> option (list (string * gv))) (fs : list func) (limit : nat).
  (** The functions of the libraries; there is only one stream at a time. *)
  Definition library_call (f : string) (args : list gv) (s : state) : answer :=
    if String.eqb f "helpers.NewStream" then Gives RStream (MkState (WOk []) (st_in s))
    else if String.eqb f "helpers.NewIterator" then Gives (RTuple [RIterator; RNil]) s
    else if String.eqb f "time.Parse" then
      match args with
      | [_; RString x] => Gives (RTuple (match parse_rfc3339 x with Some d => [RDate d; RNil] | None => [RDate zero_date; RError] end)) s
      | _ => Ends NotAllowed
      end
    else Ends NotAllowed.
  Fixpoint call_function (n : nat) (f : string) (args : list gv) (s : state) : answer :=
    match n with
    | 0 => Ends MoreSteps
    | S n =>
        match find (fun fn => String.eqb (fn_name fn) f) fs with
        | Some fn => run_function o constants structures limit (call_function n) fn args s
        | None => library_call f args s
        end
    end.
End Call.

(** * The values of the model *)

Definition run_scalar (s : scalar) : gv :=
  match s with
  | SBool b => RBool b
  | SInt z => RInt z
  | SFloat z => RFloat z
  | SString s => RString s
  | SDate d => RDate d
  | SAny a => RAny a
  end.

(** The structures of the types, types_generator.go:333-348 and 457-462. *)
Definition run_struct (t : typ) (bits : N) (id href : string) (fields : list (string * gv)) : gv :=
  RStruct (("bitmap_", RBits bits) :: (if is_class t then [("id", RString id); ("href", RString href)] else []) ++ fields).
Definition run_list (href : string) (link : bool) (items : gv) : list (string * gv) :=
  [("href", RString href); ("link", RBool link); ("items", items)].

(** The value that a variable has when it contains a value of the given type. *)
Fixpoint run_value (v : version) (k : key) (x : value) {struct x} : gv :=
  match x with
  | VScalar s => run_scalar s
  | VNil => RNil
  | VObject b =>
      match mget k (v_types v) with
      | Some t => run_struct t (o_bits b) (o_id b) (o_href b) (zip_with (fun a y => (attribute_field a, run_value v (a_type a) y)) (t_attrs t) (o_fields b))
      | None => RNil
      end
  | VSlice l => match mget k (v_types v) with Some t => RSlice (map (run_value v (elem_key t)) l) | None => RNil end
  | VList href link items => RStruct (run_list href link (run_value v k items))
  | VMap l => match mget k (v_types v) with Some t => RMap (map (fun p => (fst p, run_value v (elem_key t) (snd p))) l) | None => RNil end
  end.

(** The constants with the kinds: types_generator.go:316-328 and 445-455. *)
Definition kinds_of (n : string) : list (string * string) := [(n ++ "Kind", n); (n ++ "LinkKind", n ++ "Link"); (n ++ "NilKind", n ++ "Nil")].
Definition kind_constants (v : version) : list (string * string) :=
  flat_map (fun t => if is_struct t then ((if is_class t then kinds_of (object_name t) else []) ++ kinds_of (list_name t))%list else []) (types v).

(** * Conditions *)

(** There is one declaration for each name, as the language requires: the functions, the constants of the kinds, and the fields of the structures.  The names of the functions
    contain only letters, digits and underscores. *)
Definition declared_once (v : version) (fs : list func) : Prop :=
  NoDup (map fn_name fs) /\ Forall (fun fn => forall c, In c (list_ascii_of_string (fn_name fn)) -> GoTypesSpec.ident_char c = true) fs /\ NoDup (map fst (kind_constants v)) /\
  forall t, In t (types v) -> ObjectsSpec.structural t -> NoDup (object_fields t).

(** The code of the version has been generated, and it can be executed. *)
Definition running (pkg : string) (v : version) (fs : list func) : Prop :=
  ObjectsSpec.standard v /\ JsonCodeSpec.json_ready v /\ json_code pkg v = Done (fs, []) /\ declared_once v fs.

(** The structures of the package, with the values that their fields have when they are created. *)
Definition declares (v : version) (structures : string -> option (list (string * gv))) : Prop :=
  forall k t, mget k (v_types v) = Some t -> ObjectsSpec.structural t ->
    structures (object_name t) = Some (("bitmap_", RBits 0) :: (if is_class t then [("id", RString ""); ("href", RString "")] else [])
      ++ map (fun a => (attribute_field a, run_value v (a_type a) (field_zero v (a_type a)))) (t_attrs t))%list /\
    structures (object_name t ++ "List") = Some (run_list "" false RNil).

(** What the caller of a function that reads from a stream gets. *)
Definition parsed {A : Type} (r : result A) (f : A -> gv) (w : written) : answer :=
  match r with Ok a l => Gives (RTuple [f a; RNil]) (MkState w l) | Failed => Ends WrongDocument | OutOfFuel => Ends MoreSteps end.

(** What the caller of a function that writes to a stream gets: no error and the document, an error, or a panic. *)
Definition ended (w : written) (s : state) : answer :=
  match w with WOk l => Gives RNil (MkState (WOk l) (st_in s)) | WErr => Gives RError (MkState WErr (st_in s)) | WPanic => Ends Panic end.

(** The code has been generated for a package whose names are valid, and the structures have been declared. *)
Definition reading (pkg : string) (v : version) (fs : list func) (structures : string -> option (list (string * gv))) : Prop :=
  running pkg v fs /\ GoTypesSpec.package_path pkg /\ GoTypesSpec.named_well v /\ declares v structures.
