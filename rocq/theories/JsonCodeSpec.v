(** The rules of the Go language for the functions that read and write JSON documents. *)
From Coq Require Import Ascii String Bool Arith ZArith List.
From Verif Require Import GoStrings GoMap NamesModel ConceptsModel ReporterModel BindingModel GoNamesModel BufferModel ChecksModel ChecksSpec ObjectsModel DeclsModel GoTypesModel
  JsonCodeModel JsonModel JsonSpec ObjectsSpec GoTypesSpec.
Import ListNotations.
Local Open Scope string_scope.

(** * Variables that are used *)

(** The variable appears in the expression. *)
Fixpoint occurs (x : string) (e : jexpr) : bool :=
  match e with
  | XVar y | XAddr y => String.eqb x y
  | XName _ | XZero | XText _ | XNil | XEmpty _ | XNew _ => false
  | XField e _ | XDeref e | XConvert _ e | XNewItems _ e | XMake _ e | XLen e | XBit e _ | XNotNil e | XPositive e => occurs x e
  | XCall _ l => existsb (occurs x) l
  | XMethod e _ l => occurs x e || existsb (occurs x) l
  | XAppend a b | XIndex a b | XEqual a b | XAnd a b => occurs x a || occurs x b
  end.
(** Assigning to a variable isn't using it; assigning to a field or to an element is. *)
Definition target_occurs (x : string) (e : jexpr) : bool := match e with XVar _ => false | _ => occurs x e end.
Definition declares (x : string) (s : stm) : bool :=
  match s with TDefine xs _ => existsb (String.eqb x) xs | TVar y _ => String.eqb x y | _ => false end.
(** The variable is used in the statement, or in the list of statements before another variable with the same name is declared. *)
Fixpoint used_in (x : string) (s : stm) : bool :=
  let uses := fix uses (l : list stm) : bool :=
    match l with [] => false | s :: r => used_in x s || negb (declares x s) && uses r end in
  match s with
  | TDefine _ e => occurs x e
  | TVar _ _ | TInc _ | TBreak => false
  | TAssign ts e => existsb (target_occurs x) ts || occurs x e
  | TOrBits e _ | TDo e => occurs x e
  | TIf c a b => occurs x c || uses a || uses b
  | TFor l => uses l
  | TWhile c l => occurs x c || uses l
  | TRange xs e l => occurs x e || negb (existsb (String.eqb x) xs) && uses l
  | TSwitch e cs l => occurs x e || existsb (fun c => uses (snd c)) cs || uses l
  | TReturn es => existsb (occurs x) es
  end.
Definition uses (x : string) : list stm -> bool :=
  fix uses (l : list stm) : bool := match l with [] => false | s :: r => used_in x s || negb (declares x s) && uses r end.

(** * Types *)

Definition gStream : gotype := GPtr (GNamed "jsoniter.Stream").
Definition gIterator : gotype := GPtr (GNamed "jsoniter.Iterator").
Definition gError : gotype := GNamed "error".
Definition gString : gotype := GBasic "string".
Definition gBool : gotype := GBasic "bool".
Definition gInt : gotype := GBasic "int".
Definition gWriter : gotype := GNamed "io.Writer".
Definition gReader : gotype := GNamed "io.Reader".
(** The types of the libraries. *)
Definition library_types : list (string * gotype) :=
  [("*jsoniter.Stream", gStream); ("*jsoniter.Iterator", gIterator); ("error", gError); ("io.Writer", gWriter); ("io.Reader", gReader)].
(** The methods of the libraries: the receiver, the name, the parameters and the results. *)
Definition library_methods : list (gotype * string * list gotype * list gotype) :=
  [(gStream, "WriteBool", [gBool], []); (gStream, "WriteInt", [gInt], []); (gStream, "WriteInt64", [GBasic "int64"], []); (gStream, "WriteFloat64", [GBasic "float64"], []);
   (gStream, "WriteString", [gString], []); (gStream, "WriteVal", [GAny], []); (gStream, "WriteNil", [], []); (gStream, "WriteMore", [], []);
   (gStream, "WriteObjectStart", [], []); (gStream, "WriteObjectField", [gString], []); (gStream, "WriteObjectEnd", [], []);
   (gStream, "WriteArrayStart", [], []); (gStream, "WriteArrayEnd", [], []); (gStream, "Flush", [], [gError]);
   (gIterator, "ReadBool", [], [gBool]); (gIterator, "ReadInt", [], [gInt]); (gIterator, "ReadInt64", [], [GBasic "int64"]); (gIterator, "ReadFloat64", [], [GBasic "float64"]);
   (gIterator, "ReadString", [], [gString]); (gIterator, "ReadVal", [GAny], []); (gIterator, "ReadObject", [], [gString]); (gIterator, "ReadArray", [], [gBool]);
   (gIterator, "ReadAny", [], [GNamed "jsoniter.Any"]); (gIterator, "ReportError", [gString; gString], []);
   (GTime, "Format", [gString], [gString]); (gError, "Error", [], [gString])].
(** The functions of the libraries, and those of the package of helpers (json_generator.go:251-282). *)
Definition library_functions : list (string * list gotype * list gotype) :=
  [("time.Parse", [gString; gString], [GTime; gError]); ("sort.Strings", [GSlice gString], []);
   ("helpers.NewStream", [gWriter], [gStream]); ("helpers.NewIterator", [GAny], [gIterator; gError])].

(** Where a variable is declared: the variables of the block, those of the blocks that contain it, and if it is inside a loop. *)
Record env := MkEnv { en_inner : list (string * gotype); en_outer : list (string * gotype); en_loop : bool }.
Definition variable (c : env) (x : string) : option gotype := match mget x (en_inner c) with Some g => Some g | None => mget x (en_outer c) end.
Definition inside (c : env) (loop : bool) : env := MkEnv [] (en_inner c ++ en_outer c)%list (en_loop c || loop).
Definition declare (l : list (string * gotype)) (c : env) : env := MkEnv (l ++ en_inner c)%list (en_outer c) (en_loop c).

Section Rules.
  Context (pkg : string) (v : version) (fs : list func).

  (** The type that a text denotes: those of the package of the version, those of the libraries, and those of the requests and responses. *)
  Definition written (s : string) (g : gotype) : Prop :=
    denotes s g /\ all_declared v g \/ In (s, g) library_types \/ exists n, In n (clients_decls v) /\ s = "*" ++ n /\ g = GPtr (GNamed n).

  (** The fields: those of the types of the version, as they have been declared, those of the requests and responses, and the errors of streams and
      iterators. *)
  Inductive has_field : gotype -> string -> gotype -> Prop :=
  | f_bitmap t : In t (types v) -> structural t -> has_field (GPtr (GNamed (object_name t))) "bitmap_" (GBasic (fst (bitmap_type t)))
  | f_builtin t f : In t (types v) -> t_kind t = ClassType -> In f ["id"; "href"] -> has_field (GPtr (GNamed (object_name t))) f gString
  | f_attribute t a c l g : In t (types v) -> structural t -> In a (t_attrs t) -> generate_attribute pkg v a = Done (c, l) -> denotes (ac_object_field c) g ->
      has_field (GPtr (GNamed (object_name t))) (attribute_field a) g
  | f_request r m p c l g : In r (resources v) -> In m (r_methods r) -> In p (request_params m) -> generate_request pkg v m p = Done (c, l) -> denotes (qc_field c) g ->
      has_field (GPtr (GNamed (exchange_name r m ++ "Request"))) (parameter_field p) g
  | f_response r m p c l g : In r (resources v) -> In m (r_methods r) -> In p (response_params m) -> generate_response pkg v m p = Done (c, l) -> denotes (pc_field c) g ->
      has_field (GPtr (GNamed (exchange_name r m ++ "Response"))) (parameter_field p) g
  | f_stream : has_field gStream "Error" gError
  | f_iterator : has_field gIterator "Error" gError.

  (** The methods: those of the libraries and those of the lists. *)
  Inductive has_method : gotype -> string -> list gotype -> list gotype -> Prop :=
  | m_library g m ps rs : In (g, m, ps, rs) library_methods -> has_method g m ps rs
  | m_set_link t : In t (types v) -> structural t -> has_method (GPtr (GNamed (object_name t ++ "List"))) "SetLink" [gBool] []
  | m_set_href t : In t (types v) -> structural t -> has_method (GPtr (GNamed (object_name t ++ "List"))) "SetHREF" [gString] []
  | m_set_items t : In t (types v) -> structural t -> has_method (GPtr (GNamed (object_name t ++ "List"))) "SetItems" [GSlice (GPtr (GNamed (object_name t)))] []
  | m_items t : In t (types v) -> structural t -> has_method (GPtr (GNamed (object_name t ++ "List"))) "Items" [] [GSlice (GPtr (GNamed (object_name t)))].

  (** The functions: those of the libraries and those that have been generated. *)
  Inductive has_function : string -> list gotype -> list gotype -> Prop :=
  | c_library f ps rs : In (f, ps, rs) library_functions -> has_function f ps rs
  | c_generated fn ps rs : In fn fs -> Forall2 written (map snd (fn_params fn)) ps -> Forall2 written (map snd (fn_results fn)) rs -> has_function (fn_name fn) ps rs.

  (** The constants that are strings: the kinds of the objects and lists, and the format of the dates. *)
  Inductive string_constant : string -> Prop :=
  | s_kind t s : In t (types v) -> t_kind t = ClassType -> In s ["Kind"; "LinkKind"] -> string_constant (object_name t ++ s)
  | s_list_kind t : In t (types v) -> structural t -> string_constant ((object_name t ++ "List") ++ "LinkKind")
  | s_format : string_constant "time.RFC3339".

  (** Strings and enumerated types can be converted. *)
  Definition text_type (g : gotype) : Prop := g = gString \/ exists t, In t (types v) /\ t_kind t = EnumType /\ g = GNamed (object_name t).
  (** The structures that can be created. *)
  Definition structure (n : string) : Prop := exists t, In t (types v) /\ structural t /\ (n = object_name t \/ n = object_name t ++ "List").
  (** The mask fits in the type of the bitmap. *)
  Definition mask_fits (g : gotype) (mask : Z) : Prop :=
    (0 <= mask)%Z /\ (g = GBasic "uint32" /\ (mask < 2 ^ 32)%Z \/ g = GBasic "uint64" /\ (mask < 2 ^ 64)%Z).

  (** The types of the values of an expression: the calls to functions can have none or several. *)
  Inductive yields (c : env) : jexpr -> list gotype -> Prop :=
  | y_var x g : variable c x = Some g -> yields c (XVar x) [g]
  | y_name n : string_constant n -> yields c (XName n) [gString]
  | y_zero : yields c XZero [gInt]
  | y_text s : yields c (XText s) [gString]
  | y_field e f g h : yields c e [g] -> has_field g f h -> yields c (XField e f) [h]
  | y_deref e g : yields c e [GPtr g] -> yields c (XDeref e) [g]
  | y_addr x g : variable c x = Some g -> yields c (XAddr x) [GPtr g]
  | y_call f args ps rs : has_function f ps rs -> Forall2 (accepts c) args ps -> yields c (XCall f args) rs
  | y_method e m args g ps rs : yields c e [g] -> has_method g m ps rs -> Forall2 (accepts c) args ps -> yields c (XMethod e m args) rs
  | y_convert s e g h : written s g -> yields c e [h] -> text_type g -> text_type h -> yields c (XConvert s e) [g]
  | y_empty s g h : written s g -> element g h -> yields c (XEmpty s) [g]
  | y_new n : structure n -> yields c (XNew n) [GPtr (GNamed n)]
  | y_new_items t e : In t (types v) -> structural t -> accepts c e (GSlice (GPtr (GNamed (object_name t)))) ->
      yields c (XNewItems (object_name t ++ "List") e) [GPtr (GNamed (object_name t ++ "List"))]
  | y_make s e g : written s (GSlice g) -> yields c e [gInt] -> yields c (XMake s e) [GSlice g]
  | y_len e g h : yields c e [g] -> element g h -> yields c (XLen e) [gInt]
  | y_append e i g : yields c e [GSlice g] -> accepts c i g -> yields c (XAppend e i) [GSlice g]
  | y_slice_index e i g : yields c e [GSlice g] -> yields c i [gInt] -> yields c (XIndex e i) [g]
  | y_map_index e i g : yields c e [GMap g] -> yields c i [gString] -> yields c (XIndex e i) [g]
  | y_bit e g mask : yields c e [g] -> mask_fits g mask -> yields c (XBit e mask) [gBool]
  | y_not_nil e g : yields c e [g] -> nillable g \/ g = gError -> yields c (XNotNil e) [gBool]
  | y_equal a b : yields c a [gString] -> yields c b [gString] -> yields c (XEqual a b) [gBool]
  | y_positive e : yields c e [gInt] -> yields c (XPositive e) [gBool]
  | y_and a b : yields c a [gBool] -> yields c b [gBool] -> yields c (XAnd a b) [gBool]
  (** An expression can be used where a value of the same type is expected, or a value of type [interface{}]. *)
  with accepts (c : env) : jexpr -> gotype -> Prop :=
  | x_same e g : yields c e [g] -> accepts c e g
  | x_any e g : yields c e [g] -> accepts c e GAny
  | x_nil g : nillable g \/ g = gError -> accepts c XNil g.

  (** What can be assigned: variables, fields and elements. *)
  Definition target (c : env) (e : jexpr) (g : gotype) : Prop :=
    yields c e [g] /\ match e with XVar _ | XField _ _ | XIndex _ _ => True | _ => False end.
  Definition is_call (e : jexpr) : Prop := match e with XCall _ _ | XMethod _ _ _ => True | _ => False end.

  (** The statements that don't declare variables, and the blocks; [rs] are the types of the results of the function, and [named] says if they have
      names. All the variables that are declared have to be used. *)
  Section Statements.
    Context (rs : list gotype) (named : bool).
    Inductive statement (c : env) : stm -> Prop :=
    | st_assign t e g : target c t g -> accepts c e g -> statement c (TAssign [t] e)
    | st_assign_all ts e gs : yields c e gs -> Forall2 (target c) ts gs -> statement c (TAssign ts e)
    | st_or_bits e g mask : target c e g -> mask_fits g mask -> statement c (TOrBits e mask)
    | st_do e l : is_call e -> yields c e l -> statement c (TDo e)
    | st_inc x : variable c x = Some gInt -> statement c (TInc x)
    | st_if e a b : yields c e [gBool] -> block (inside c false) a -> block (inside c false) b -> statement c (TIf e a b)
    | st_for l : block (inside c true) l -> statement c (TFor l)
    | st_while e l : yields c e [gBool] -> block (inside c true) l -> statement c (TWhile e l)
    | st_range_keys x e g l : yields c e [GMap g] -> uses x l = true -> block (inside (declare [(x, gString)] (inside c true)) true) l -> statement c (TRange [x] e l)
    | st_range_items x y e g l : yields c e [GSlice g] -> x <> y -> uses x l = true -> uses y l = true ->
        block (inside (declare [(x, gInt); (y, g)] (inside c true)) true) l -> statement c (TRange [x; y] e l)
    | st_switch e cs l : yields c e [gString] -> NoDup (map fst cs) -> Forall (fun k => block (inside c false) (snd k)) cs -> block (inside c false) l -> statement c (TSwitch e cs l)
    | st_break : en_loop c = true -> statement c TBreak
    | st_return es : Forall2 (accepts c) es rs -> statement c (TReturn es)
    | st_return_named : named = true -> statement c (TReturn [])
    with block (c : env) : list stm -> Prop :=
    | bl_nil : block c []
    | bl_statement s l : statement c s -> block c l -> block c (s :: l)
    | bl_define xs e gs l : yields c e gs -> length xs = length gs -> NoDup xs ->
        (exists x, In x xs /\ mget x (en_inner c) = None) ->
        (forall x g, In (x, g) (combine xs gs) -> mget x (en_inner c) = None /\ uses x l = true \/ mget x (en_inner c) = Some g) ->
        block (declare (combine xs gs) c) l -> block c (TDefine xs e :: l)
    | bl_var x s g l : written s g -> mget x (en_inner c) = None -> uses x l = true -> block (declare [(x, g)] c) l -> block c (TVar x s :: l).
  End Statements.

  (** A function is accepted: the types exist, the body is accepted, and if there are results it ends with a return statement. *)
  Definition function_compiles (fn : func) : Prop :=
    exists ps rs,
      Forall2 written (map snd (fn_params fn)) ps /\ Forall2 written (map snd (fn_results fn)) rs /\
      let results := filter (fun p => negb (String.eqb (fst p) "")) (combine (map fst (fn_results fn)) rs) in
      let variables := (combine (map fst (fn_params fn)) ps ++ results)%list in
      NoDup (map fst variables) /\
      block rs (Nat.eqb (length results) (length rs)) (MkEnv variables [] false) (fn_body fn) /\
      (rs <> [] -> exists l es, fn_body fn = (l ++ [TReturn es])%list).
End Rules.

(** * Conditions *)

(** The structs aren't empty, the attributes fit in the bitmap and have different names in the documents, and their types can be used. *)
Definition type_ready (v : version) (t : typ) : Prop :=
  fits t /\ tagged t /\ (t_kind t = StructType -> t_attrs t <> []) /\ forall a, In a (t_attrs t) -> acceptable v (a_type a) (a_link a).

(** The method is one of those that aren't actions. *)
Definition known_method (m : method) : Prop := exists ws, In ws known_methods /\ called ws (m_name m).

(** The method has been accepted by the checks; its parameters have types that can be used, and none of them is called like the fields that all the
    responses have; the parameters have different names, and those that are read from the same document have different names in it. *)
Definition method_ready (v : version) (m : method) : Prop :=
  accepted_method v m /\
  (forall p, In p (m_params m) -> acceptable v (p_type p) false /\ ~ In (go_private (p_name p)) ["err"; "status"]) /\
  (known_method m -> NoDup (map (fun p => go_private (p_name p)) (m_params m))) /\
  (called ["list"] (m_name m) \/ called ["search"] (m_name m) -> NoDup ("items" :: map body_parameter_name (filter (fun p => negb (is_items m p)) (response_params m)))) /\
  (~ known_method m -> NoDup (map body_parameter_name (response_params m))).

(** The types have different names; the types and the methods are as above, and the elements of the lists exist. *)
Definition json_ready (v : version) : Prop :=
  NoDup (mkeys (v_types v)) /\
  (forall t, In t (types v) -> structural t -> type_ready v t) /\
  (forall t, In t (types v) -> t_kind t = ListType -> exists e te, t_element t = Some e /\ mget e (v_types v) = Some te) /\
  (forall r m, In r (resources v) -> In m (r_methods r) -> method_ready v m).
