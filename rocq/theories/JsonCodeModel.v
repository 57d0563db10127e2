(** Model of the Go code that reads and writes JSON documents: the functions that pkg/generators/golang/json_generator.go generates for the
    types and the methods of a version, with their statements.

    Simplifications:
    - The functions of the metadata (json_generator.go:472-531) aren't included, as they don't depend on the model.
    - Attributes with an owner of the link (those that the [@ref] annotation makes) aren't considered.
    - The imports aren't part of the functions.
    - The literals that are strings are represented by their values, as the names of attributes don't need to be quoted.
    - The code for the elements of a map whose elements are maps isn't generated: an error is reported for those maps (see C82). *)
From Coq Require Import Ascii String Bool Arith ZArith List.
From Verif Require Import GoStrings GoMap NamesModel ConceptsModel ReporterModel BindingModel GoNamesModel TextModel BufferModel ChecksModel ObjectsModel DeclsModel GoTypesModel.
Import ListNotations.
Local Open Scope string_scope.

(** * The language *)

(** Expressions. Functions and types are identified by their texts. [XNewItems t e] is [&t{items: e}], [XBit e m] is [e&m != 0], and
    [XPositive e] is [e > 0]. *)
Inductive jexpr :=
| XVar (x : string)
| XName (n : string)
| XZero
| XText (s : string)
| XNil
| XField (e : jexpr) (f : string)
| XDeref (e : jexpr)
| XAddr (x : string)
| XCall (f : string) (args : list jexpr)
| XMethod (e : jexpr) (m : string) (args : list jexpr)
| XConvert (t : string) (e : jexpr)
| XEmpty (t : string)
| XNew (t : string)
| XNewItems (t : string) (e : jexpr)
| XMake (t : string) (size : jexpr)
| XLen (e : jexpr)
| XAppend (l e : jexpr)
| XIndex (e i : jexpr)
| XBit (e : jexpr) (mask : Z)
| XNotNil (e : jexpr)
| XEqual (a b : jexpr)
| XPositive (e : jexpr)
| XAnd (a b : jexpr).

(** Statements. [TDefine] is [x, y := e], [TOrBits e m] is [e |= m], [TFor] is a loop without condition, and [TWhile] a loop with a condition. *)
Inductive stm :=
| TDefine (xs : list string) (e : jexpr)
| TVar (x : string) (t : string)
| TAssign (targets : list jexpr) (e : jexpr)
| TOrBits (e : jexpr) (mask : Z)
| TDo (e : jexpr)
| TInc (x : string)
| TIf (c : jexpr) (yes no : list stm)
| TFor (body : list stm)
| TWhile (c : jexpr) (body : list stm)
| TRange (xs : list string) (e : jexpr) (body : list stm)
| TSwitch (e : jexpr) (cases : list (string * list stm)) (default : list stm)
| TBreak
| TReturn (es : list jexpr).

(** Functions: the parameters and the results have a name and the text of the type; the name of a result can be empty. *)
Record func := MkFunc { fn_name : string; fn_params : list (string * string); fn_results : list (string * string); fn_body : list stm }.

(** * Names of the functions *)

(** json_generator.go:1519-1526, [marshalTypeFunc]. *)
Definition marshal_func (t : typ) : string := "Marshal" ++ go_name_or_public (t_annots t) (t_name t).
(** json_generator.go:1528-1540, [writeTypeFunc], and [writeRefTypeFunc] without a referenced version. *)
Definition write_func (t : typ) : string := go_public (cat [nWrite; t_name t]).
(** json_generator.go:1542-1549, [unmarshalTypeFunc]. *)
Definition unmarshal_func (t : typ) : string := "Unmarshal" ++ go_name_or_public (t_annots t) (t_name t).
(** json_generator.go:1551-1563, [readTypeFunc], and [readRefTypeFunc] without a referenced version. *)
Definition read_func (t : typ) : string := go_public (cat [nRead; t_name t]).

(** * Pieces that are repeated in the templates *)

Definition the_stream : jexpr := XVar "stream".
Definition the_iterator : jexpr := XVar "iterator".
Definition write (m : string) (args : list jexpr) : stm := TDo (XMethod the_stream m args).
Definition read (m : string) : jexpr := XMethod the_iterator m [].
Definition write_more : stm := TIf (XPositive (XVar "count")) [write "WriteMore" []] [].
(** The loop that reads the members of an object, for example json_generator.go:679-710. *)
Definition members (name : string) (body : list stm) : stm :=
  TFor ([TDefine [name] (read "ReadObject"); TIf (XEqual (XVar name) (XText "")) [TBreak] []] ++ body)%list.
Definition member_cases (cases : list (string * list stm)) : stm := members "field" [TSwitch (XVar "field") cases [TDo (read "ReadAny")]].

(** * Values *)

(** json_generator.go:1328-1337 and 1445-1454: the methods of the JSON library for the types that have one. *)
Definition library_type (k : key) : option string :=
  if is_builtin nBoolean k then Some "Bool"
  else if is_builtin nInteger k then Some "Int"
  else if is_builtin nLong k then Some "Int64"
  else if is_builtin nFloat k then Some "Float64"
  else if is_builtin nString k then Some "String"
  else None.

Section Values.
  Context (pkg : string) (v : version).

  (** types_calculator.go:132-158, [StructReference]: the name. A list without element isn't expected: the code fails with a panic. *)
  Definition struct_name (t : typ) : string :=
    if is_list t then match element_of v t with Some (_, te) => object_name te ++ "List" | None => "" end else object_name t.

  (** json_generator.go:1323-1396, [generateReadValue], for the types that aren't maps. *)
  Definition read_flat (x : string) (k : key) (t : typ) (link : bool) : list stm :=
    match library_type k with
    | Some m => [TDefine [x] (read ("Read" ++ m))]
    | None =>
        if is_interface t then [TVar x "interface{}"; TDo (XMethod the_iterator "ReadVal" [XAddr x])]
        else if is_builtin nDate k then
          [TDefine ["text"] (read "ReadString"); TDefine [x; "err"] (XCall "time.Parse" [XName "time.RFC3339"; XVar "text"]);
           TIf (XNotNil (XVar "err")) [TDo (XMethod the_iterator "ReportError" [XText ""; XMethod (XVar "err") "Error" []])] []]
        else if is_enum t then [TDefine ["text"] (read "ReadString"); TDefine [x] (XConvert (object_name t) (XVar "text"))]
        else if is_struct t then [TDefine [x] (XCall (read_func t) [the_iterator])]
        else if is_list t then
          if link then
            [TDefine [x] (XNew (struct_name t));
             member_cases
               [("kind", [TDefine ["text"] (read "ReadString"); TDo (XMethod (XVar x) "SetLink" [XEqual (XVar "text") (XName (struct_name t ++ "LinkKind"))])]);
                ("href", [TDo (XMethod (XVar x) "SetHREF" [read "ReadString"])]);
                ("items", [TDo (XMethod (XVar x) "SetItems" [XCall (read_func t) [the_iterator]])])]]
          else [TDefine [x] (XCall (read_func t) [the_iterator])]
        else [TDo (read "ReadAny")]
    end.
  (** json_generator.go:1377-1386: the code for maps. *)
  Definition read_value (x : string) (k : key) (t : typ) (link : bool) : outcome (list stm * list report) :=
    if is_map t then
      match value_reference pkg v k t, element_of v t with
      | Done (r, l), Some (e, te) =>
          Done ([TDefine [x] (XEmpty (rendered pkg r));
                 members "key" (read_flat "item" e te false ++ [TAssign [XIndex (XVar x) (XVar "key")] (XVar "item")])], l)
      | _, _ => Panics
      end
    else Done (read_flat x k t link, []).

  (** json_generator.go:1438-1501, [generateWriteValue], for the types that aren't maps. *)
  Definition write_flat (e : jexpr) (k : key) (t : typ) (link : bool) : list stm :=
    match library_type k with
    | Some m => [write ("Write" ++ m) [e]]
    | None =>
        if is_builtin nDate k then [write "WriteString" [XMethod e "Format" [XName "time.RFC3339"]]]
        else if is_enum t then [write "WriteString" [XConvert "string" e]]
        else if is_interface t then [write "WriteVal" [e]]
        else if is_struct t then [TDo (XCall (write_func t) [e; the_stream])]
        else if is_list t then
          if link then
            [write "WriteObjectStart" []; write "WriteObjectField" [XText "items"]; TDo (XCall (write_func t) [XMethod e "Items" []; the_stream]); write "WriteObjectEnd" []]
          else [TDo (XCall (write_func t) [e; the_stream])]
        else []
    end.
  (** json_generator.go:1472-1493: the code for maps. *)
  Definition write_value (e : jexpr) (k : key) (t : typ) (link : bool) : outcome (list stm) :=
    if is_map t then
      match element_of v t with
      | Some (ke, te) =>
          Done [TIf (XNotNil e)
            [write "WriteObjectStart" [];
             TDefine ["keys"] (XMake "[]string" (XLen e));
             TDefine ["i"] XZero;
             TRange ["key"] e [TAssign [XIndex (XVar "keys") (XVar "i")] (XVar "key"); TInc "i"];
             TDo (XCall "sort.Strings" [XVar "keys"]);
             TRange ["i"; "key"] (XVar "keys")
               ([TIf (XPositive (XVar "i")) [write "WriteMore" []] []; TDefine ["item"] (XIndex e (XVar "key")); write "WriteObjectField" [XVar "key"]]
                ++ write_flat (XVar "item") ke te false);
             write "WriteObjectEnd" []]
            [write "WriteNil" []]]
      | None => Panics
      end
    else Done (write_flat e k t link).

  (** * Types *)

  (** json_generator.go:595-604 and 778-788, the function that marshals; [x] is the name of the first parameter. *)
  Definition marshal_code (x text : string) (t : typ) : func :=
    MkFunc (marshal_func t) [(x, text); ("writer", "io.Writer")] [("", "error")]
      [TDefine ["stream"] (XCall "helpers.NewStream" [XVar "writer"]);
       TDo (XCall (write_func t) [XVar x; the_stream]);
       TDefine ["err"] (XMethod the_stream "Flush" []);
       TIf (XNotNil (XVar "err")) [TReturn [XVar "err"]] [];
       TReturn [XField the_stream "Error"]].
  (** json_generator.go:664-674 and 803-813, the function that unmarshals; [x] is the name of the first result. *)
  Definition unmarshal_code (x text : string) (t : typ) : func :=
    MkFunc (unmarshal_func t) [("source", "interface{}")] [(x, text); ("err", "error")]
      [TDefine ["iterator"; "err"] (XCall "helpers.NewIterator" [XVar "source"]);
       TIf (XNotNil (XVar "err")) [TReturn []] [];
       TAssign [XVar x] (XCall (read_func t) [the_iterator]);
       TAssign [XVar "err"] (XField the_iterator "Error");
       TReturn []].

  Definition object_field (f : string) : jexpr := XField (XVar "object") f.
  (** json_generator.go:610-636, the code that writes the members that all the classes have. *)
  Definition write_class (t : typ) : list stm :=
    if is_class t then
      [write "WriteObjectField" [XText "kind"];
       TIf (XBit (object_field "bitmap_") 1) [write "WriteString" [XName (object_name t ++ "LinkKind")]] [write "WriteString" [XName (object_name t ++ "Kind")]];
       TInc "count";
       TIf (XBit (object_field "bitmap_") 2) [write_more; write "WriteObjectField" [XText "id"]; write "WriteString" [object_field "id"]; TInc "count"] [];
       TIf (XBit (object_field "bitmap_") 4)
         ([write_more; write "WriteObjectField" [XText "href"]; write "WriteString" [object_field "href"]] ++ match t_attrs t with [] => [] | _ => [TInc "count"] end) []]
    else [].
  (** json_generator.go:640-659, the code that writes the attribute in the position [i]. *)
  Definition write_attribute (t : typ) (i : nat) (a : attribute) : outcome (list stm) :=
    match type_at (a_type a) v with
    | None => Panics
    | Some ta =>
        let field := object_field (attribute_field a) in
        match write_value field (a_type a) ta (a_link a) with
        | Done l =>
            Done [TAssign [XVar "present_"]
                    (if is_scalar ta then XBit (object_field "bitmap_") (bit_mask t i) else XAnd (XBit (object_field "bitmap_") (bit_mask t i)) (XNotNil field));
                  TIf (XVar "present_")
                    ([write_more; write "WriteObjectField" [XText (attribute_name a)]] ++ l ++ (if (i <? length (t_attrs t) - 1)%nat then [TInc "count"] else [])) []]
        | _ => Panics
        end
    end.
  Fixpoint write_attributes (t : typ) (i : nat) (l : list attribute) : outcome (list stm) :=
    match l with
    | [] => Done []
    | a :: r => match write_attribute t i a, write_attributes t (S i) r with Done x, Done y => Done (x ++ y)%list | _, _ => Panics end
    end.
  (** json_generator.go:606-662. *)
  Definition write_code (t : typ) : outcome func :=
    match write_attributes t 0 (t_attrs t) with
    | Done l =>
        Done (MkFunc (write_func t) [("object", "*" ++ object_name t); ("stream", "*jsoniter.Stream")] []
          ([TDefine ["count"] XZero; write "WriteObjectStart" []] ++ write_class t
           ++ (match t_attrs t with [] => [] | _ => TVar "present_" "bool" :: l end) ++ [write "WriteObjectEnd" []]))
    | _ => Panics
    end.

  (** json_generator.go:685-697, the cases of the members that all the classes have. *)
  Definition read_class (t : typ) : list (string * list stm) :=
    if is_class t then
      [("kind", [TDefine ["value"] (read "ReadString"); TIf (XEqual (XVar "value") (XName (object_name t ++ "LinkKind"))) [TOrBits (object_field "bitmap_") 1] []]);
       ("id", [TAssign [object_field "id"] (read "ReadString"); TOrBits (object_field "bitmap_") 2]);
       ("href", [TAssign [object_field "href"] (read "ReadString"); TOrBits (object_field "bitmap_") 4])]
    else [].
  (** json_generator.go:698-706, the case of the attribute in the position [i]. *)
  Definition read_attribute (t : typ) (i : nat) (a : attribute) : outcome ((string * list stm) * list report) :=
    match type_at (a_type a) v with
    | None => Panics
    | Some ta =>
        match read_value "value" (a_type a) ta (a_link a) with
        | Done (l, rs) =>
            Done ((attribute_name a, (l ++ [TAssign [object_field (attribute_field a)] (XVar "value"); TOrBits (object_field "bitmap_") (bit_mask t i)])%list), rs)
        | _ => Panics
        end
    end.
  Fixpoint read_attributes (t : typ) (i : nat) (l : list attribute) : outcome (list (string * list stm) * list report) :=
    match l with
    | [] => Done ([], [])
    | a :: r =>
        match read_attribute t i a, read_attributes t (S i) r with
        | Done (x, rs), Done (y, rs') => Done (x :: y, (rs ++ rs')%list)
        | _, _ => Panics
        end
    end.
  (** json_generator.go:676-712. *)
  Definition read_code (t : typ) : outcome (func * list report) :=
    match read_attributes t 0 (t_attrs t) with
    | Done (l, rs) =>
        Done (MkFunc (read_func t) [("iterator", "*jsoniter.Iterator")] [("", "*" ++ object_name t)]
                [TDefine ["object"] (XNew (object_name t)); member_cases (read_class t ++ l); TReturn [XVar "object"]], rs)
    | _ => Panics
    end.
  (** json_generator.go:582-716, [generateStructTypeSource]. *)
  Definition struct_code (t : typ) : outcome (list func * list report) :=
    match write_code t, read_code t with
    | Done w, Done (r, l) =>
        let text := "*" ++ object_name t in
        Done ([marshal_code "object" text t; w; unmarshal_code "object" text t; r], l)
    | _, _ => Panics
    end.

  (** json_generator.go:763-829, [generateListTypeSource]. *)
  Definition list_code (k : key) (t : typ) (e : key) (te : typ) : outcome (list func * list report) :=
    match value_reference pkg v k t, write_value (XVar "value") e te false, read_value "item" e te false with
    | Done (s, l1), Done w, Done (r, l2) =>
        let text := rendered pkg s in
        Done ([marshal_code "list" text t;
               MkFunc (write_func t) [("list", text); ("stream", "*jsoniter.Stream")] []
                 [write "WriteArrayStart" [];
                  TRange ["i"; "value"] (XVar "list") (TIf (XPositive (XVar "i")) [write "WriteMore" []] [] :: w);
                  write "WriteArrayEnd" []];
               unmarshal_code "items" text t;
               MkFunc (read_func t) [("iterator", "*jsoniter.Iterator")] [("", text)]
                 [TDefine ["list"] (XEmpty text);
                  TWhile (read "ReadArray") (r ++ [TAssign [XVar "list"] (XAppend (XVar "list") (XVar "item"))]);
                  TReturn [XVar "list"]]], (l1 ++ l2)%list)
    | _, _, _ => Panics
    end.

  (** json_generator.go:187-195: the functions of a type. The key of the type is needed to know if it is one of the types that all the versions
      have. *)
  Definition type_code (k : key) (t : typ) : outcome (list func * list report) :=
    if is_struct t then struct_code t
    else if is_list t then
      match element_of v t with
      | Some (e, te) => if is_scalar te || is_struct te then list_code k t e te else Done ([], [])
      | None => Panics
      end
    else Done ([], []).

  (** * Methods *)

  Definition request_field (f : string) : jexpr := XField (XVar "request") f.
  Definition response_field (f : string) : jexpr := XField (XVar "response") f.

  (** The functions of a method: json_generator.go:1619-1657 and 1573-1617 have the names. *)
  Definition request_func (r : resource) (m : method) (body : list stm) : func :=
    MkFunc (write_request_func (is_root r) r m) [("request", "*" ++ exchange_name r m ++ "Request"); ("writer", "io.Writer")] [("", "error")] body.
  Definition response_func (r : resource) (m : method) (body : list stm) : func :=
    MkFunc (read_response_func (is_root r) r m) [("response", "*" ++ exchange_name r m ++ "Response"); ("reader", "io.Reader")] [("", "error")] body.
  Definition nothing : list stm := [TReturn [XNil]].
  (** json_generator.go:912 and others: the body is one parameter. *)
  Definition marshal_field (t : typ) (f : string) : list stm := [TReturn [XCall (marshal_func t) [request_field f; XVar "writer"]]].
  Definition unmarshal_field (t : typ) (f : string) : list stm :=
    [TVar "err" "error"; TAssign [response_field f; XVar "err"] (XCall (unmarshal_func t) [XVar "reader"]); TReturn [XVar "err"]].

  (** pkg/concepts/method.go, [GetParameter]: the type of the parameter with that name. The templates fail with a panic if there isn't one. *)
  Definition typed_parameter (n : name) (m : method) : option (parameter * typ) :=
    match get_parameter n m with Some p => match type_at (p_type p) v with Some t => Some (p, t) | None => None end | None => None end.

  (** json_generator.go:1300-1321, [generateReadBodyParameter]. *)
  Definition read_parameter (p : parameter) : outcome ((string * list stm) * list report) :=
    match type_at (p_type p) v with
    | None => Panics
    | Some t =>
        match read_value "value" (p_type p) t false with
        | Done (l, rs) =>
            Done ((body_parameter_name p, (l ++ [TAssign [response_field (json_parameter_field p)] (if is_scalar t then XAddr "value" else XVar "value")])%list), rs)
        | _ => Panics
        end
    end.
  Fixpoint read_parameters (l : list parameter) : outcome (list (string * list stm) * list report) :=
    match l with
    | [] => Done ([], [])
    | p :: r =>
        match read_parameter p, read_parameters r with
        | Done (x, rs), Done (y, rs') => Done (x :: y, (rs ++ rs')%list)
        | _, _ => Panics
        end
    end.
  Definition read_response (cases : list (string * list stm)) : list stm :=
    [TDefine ["iterator"; "err"] (XCall "helpers.NewIterator" [XVar "reader"]);
     TIf (XNotNil (XVar "err")) [TReturn [XVar "err"]] [];
     member_cases cases;
     TReturn [XField the_iterator "Error"]].

  (** json_generator.go:973-994 and 1098-1122: the parameters are classified; when there are several with the same name the last one is used. *)
  Definition last_named (n : name) (l : list parameter) : option parameter :=
    fold_left (fun found p => if name_equals (Some (p_name p)) (Some n) then Some p else found) l None.
  Definition option_list {A : Type} (o : option A) : list A := match o with Some a => [a] | None => [] end.
  Definition is_special (special : list name) (p : parameter) : bool := existsb (fun n => name_equals (Some (p_name p)) (Some n)) special.
  (** json_generator.go:1004-1043 and 1136-1175: the function that reads the response of list and search methods. *)
  Definition read_page (special : list name) (m : method) : outcome (list stm * list report) :=
    let others := filter (fun p => negb (is_special special p)) (m_params m) in
    match last_named nItems (m_params m) with
    | None => Panics
    | Some items =>
        match type_at (p_type items) v with
        | None => Panics
        | Some t =>
            match read_parameters (option_list (last_named nPage (m_params m)) ++ option_list (last_named nSize (m_params m)) ++ option_list (last_named nTotal (m_params m)) ++ filter p_out others),
                  read_value "items" (p_type items) t false with
            | Done (cases, l1), Done (r, l2) =>
                Done (read_response
                  (cases ++ [("items", (r ++ [TAssign [response_field "items"]
                                                 (if is_list t && scalar_element v t then XVar "items" else XNewItems (struct_name t) (XVar "items"))])%list)]), (l1 ++ l2)%list)
            | _, _ => Panics
            end
        end
    end.

  (** json_generator.go:1398-1436, [generateWriteBodyParameter]. *)
  Definition write_parameter (p : parameter) : outcome (list stm) :=
    match type_at (p_type p) v with
    | None => Panics
    | Some t =>
        let field := request_field (json_parameter_field p) in
        match write_value (if is_scalar t && negb (is_interface t) then XDeref field else field) (p_type p) t false with
        | Done l => Done [TIf (XNotNil field) ([write_more; write "WriteObjectField" [XText (body_parameter_name p)]] ++ l ++ [TInc "count"]) []]
        | _ => Panics
        end
    end.
  Fixpoint write_parameters (l : list parameter) : outcome (list stm) :=
    match l with
    | [] => Done []
    | p :: r => match write_parameter p, write_parameters r with Done x, Done y => Done (x ++ y)%list | _, _ => Panics end
    end.

  (** json_generator.go:910-931, 933-947 and 949-970: add, delete and get. *)
  Definition add_code (m : method) : outcome (list stm * list stm * list report) :=
    match typed_parameter nBody m with Some (p, t) => Done (marshal_field t "body", unmarshal_field t "body", []) | None => Panics end.
  Definition get_code (m : method) : outcome (list stm * list stm * list report) :=
    match typed_parameter nBody m with Some (p, t) => Done (nothing, unmarshal_field t "body", []) | None => Panics end.
  (** json_generator.go:972-1053: list. *)
  Definition list_method_code (m : method) : outcome (list stm * list stm * list report) :=
    match read_page [nPage; nSize; nTotal; nItems] m with Done (l, rs) => Done (nothing, l, rs) | _ => Panics end.
  (** json_generator.go:1055-1095: post. The last input and output parameters are used. *)
  Definition last_parameter (f : parameter -> bool) (m : method) : option parameter :=
    fold_left (fun found p => if f p then Some p else found) (m_params m) None.
  Definition post_code (m : method) : outcome (list stm * list stm * list report) :=
    let request := match last_parameter p_in m with
                   | Some p => match type_at (p_type p) v with Some t => Some (marshal_field t (json_parameter_field p)) | None => None end
                   | None => Some nothing
                   end in
    let response := match last_parameter p_out m with
                    | Some p => match type_at (p_type p) v with Some t => Some (unmarshal_field t (json_parameter_field p)) | None => None end
                    | None => Some nothing
                    end in
    match request, response with Some q, Some p => Done (q, p, []) | _, _ => Panics end.
  (** json_generator.go:1097-1187: search. *)
  Definition search_code (m : method) : outcome (list stm * list stm * list report) :=
    let request := match last_named nBody (m_params m) with
                   | Some p => match type_at (p_type p) v with Some t => Some (marshal_field t (json_parameter_field p)) | None => None end
                   | None => Some nothing
                   end in
    match request, read_page [nPage; nSize; nTotal; nBody; nItems] m with Some q, Done (l, rs) => Done (q, l, rs) | _, _ => Panics end.
  (** json_generator.go:1212-1264: actions. *)
  Definition action_code (m : method) : outcome (list stm * list stm * list report) :=
    match write_parameters (request_body_params v m), read_parameters (response_body_params m) with
    | Done w, Done (cases, rs) =>
        Done (match request_body_params v m with
              | [] => nothing
              | _ =>
                  ([TDefine ["count"] XZero; TDefine ["stream"] (XCall "helpers.NewStream" [XVar "writer"]); write "WriteObjectStart" []] ++ w
                   ++ [write "WriteObjectEnd" []; TDefine ["err"] (XMethod the_stream "Flush" []); TIf (XNotNil (XVar "err")) [TReturn [XVar "err"]] [];
                       TReturn [XField the_stream "Error"]])%list
              end,
              match response_body_params m with [] => nothing | _ => read_response cases end, rs)
    | _, _ => Panics
    end.

  (** json_generator.go:884-908, [generateMethodSource], and 1189-1210 for updates, whose code is the same as the code of add. *)
  Definition method_code (r : resource) (m : method) : outcome (list func * list report) :=
    let code :=
      if is_add m then add_code m
      else if is_delete m || is_async_delete m then Done (nothing, nothing, [])
      else if is_get m then get_code m
      else if is_list_method m then list_method_code m
      else if is_post m then post_code m
      else if is_search m then search_code m
      else if is_update m || is_async_update m then add_code m
      else action_code m in
    match code with
    | Done (q, p, l) => Done ([request_func r m q; response_func r m p], l)
    | _ => Panics
    end.

  (** * All the functions *)

  Fixpoint collect {A : Type} (f : A -> outcome (list func * list report)) (l : list A) : outcome (list func * list report) :=
    match l with
    | [] => Done ([], [])
    | a :: r => match f a, collect f r with Done (x, rs), Done (y, rs') => Done ((x ++ y)%list, (rs ++ rs')%list) | _, _ => Panics end
    end.
  (** json_generator.go:160-208: the functions of the package of a version. The order of the types doesn't matter here. *)
  Definition json_code : outcome (list func * list report) :=
    match collect (fun kt => type_code (fst kt) (snd kt)) (v_types v), collect (fun r => collect (method_code r) (r_methods r)) (resources v) with
    | Done (x, rs), Done (y, rs') => Done ((x ++ y)%list, (rs ++ rs')%list)
    | _, _ => Panics
    end.
End Values.
