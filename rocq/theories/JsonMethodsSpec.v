(** Vocabulary used to state what happens when the functions that write the bodies of the requests and read the bodies of the responses are executed. *)
From Coq Require Import Ascii String Bool Arith ZArith NArith List.
From Verif Require Import GoStrings GoMap NamesModel ConceptsModel ReporterModel BindingModel GoNamesModel ChecksModel ObjectsModel JsonModel JsonCodeModel ClientsModel JsonRunSpec.
Import ListNotations.
Local Open Scope string_scope.

(** What a field of a request or of a response contains when it has a value: scalars are behind pointers, and nil is the lack of value. *)
Definition run_field (v : version) (k : key) (x : value) : gv :=
  match x with
  | VNil => RNil
  | _ =>
      match mget k (v_types v) with
      | Some t => match t_kind t with ScalarType | EnumType | InterfaceType => RPtr (run_value v k x) | _ => run_value v k x end
      | None => RNil
      end
  end.

(** The value of a field in the model of the requests; the ones that don't appear are nil. *)
Definition value_of (fields : list (string * value)) (f : string) : value := match mget f fields with Some x => x | None => VNil end.

(** The structure of the request of the method contains the given values of the parameters. *)
Definition carries (v : version) (m : method) (fields : list (string * value)) (l : list (string * gv)) : Prop :=
  forall p, In p (m_params m) -> p_in p = true -> mget (client_field p) l = Some (run_field v (p_type p) (value_of fields (client_field p))).

(** What happens when the function that reads the body of a response is called: the error that it returns and the structure of the response after that, as
    the function receives a pointer to it; or else the reason why it doesn't return. *)
Inductive reception :=
| Received (err response : gv) (s : state)
| Interrupted (x : ending).
Definition receive (o : oracle) (v : version) (structures : string -> option (list (string * gv))) (fs : list func) (limit n : nat) (f : string) (response : gv) (s : state) : reception :=
  match find (fun fn => String.eqb (fn_name fn) f) fs with
  | None => Interrupted NotAllowed
  | Some fn =>
      match map fst (fn_params fn) with
      | [x; y] =>
          match block o (kind_constants v) structures limit (call_function o (kind_constants v) structures fs limit n) [[(x, response); (y, RSource)]] s (fn_body fn) with
          | Returns [g] e s => match lookup e x with Some response => Received g response s | None => Interrupted NotAllowed end
          | Stops x => Interrupted x
          | _ => Interrupted NotAllowed
          end
      | _ => Interrupted NotAllowed
      end
  end.

(** The fields of the response that have been read contain the values of the output parameters, and the others haven't changed. *)
Definition filled (v : version) (m : method) (fields : list (string * value)) (before after : list (string * gv)) : Prop :=
  forall f,
    match mget f fields with
    | Some x => exists p, In p (m_params m) /\ p_out p = true /\ client_field p = f /\ mget f after = Some (run_field v (p_type p) x)
    | None => mget f after = mget f before
    end.

(** The structure of the response has one field for each output parameter. *)
Definition has_fields (m : method) (l : list (string * gv)) : Prop := forall p, In p (m_params m) -> p_out p = true -> mget (client_field p) l <> None.

(** The interpreter ends when an iterator finds an error, while the real iterators and streams store it. This says that the functions that receive what has
    to be written or read return the error that has been stored or the one given by the function that they call, so that it isn't lost; those that don't
    read or write anything don't return errors. *)
Definition returns_errors (fn : func) : Prop :=
  (exists p, In p (fn_params fn) /\ In p [("writer", "io.Writer"); ("reader", "io.Reader"); ("source", "interface{}")]) ->
  fn_body fn = [TReturn [XNil]] \/
  (exists g args, fn_body fn = [TReturn [XCall g args]]) \/
  (exists target g args, fn_body fn = [TVar "err" "error"; TAssign [target; XVar "err"] (XCall g args); TReturn [XVar "err"]]) \/
  (exists body, fn_body fn = (body ++ [TDefine ["err"] (XMethod (XVar "stream") "Flush" []); TIf (XNotNil (XVar "err")) [TReturn [XVar "err"]] [];
      TReturn [XField (XVar "stream") "Error"]])%list /\ In (TDefine ["stream"] (XCall "helpers.NewStream" [XVar "writer"])) body) \/
  (exists body, fn_body fn = TDefine ["iterator"; "err"] (XCall "helpers.NewIterator" [XVar "reader"]) :: TIf (XNotNil (XVar "err")) [TReturn [XVar "err"]] []
      :: (body ++ [TReturn [XField (XVar "iterator") "Error"]])%list) \/
  (exists body, fn_body fn = TDefine ["iterator"; "err"] (XCall "helpers.NewIterator" [XVar "source"]) :: TIf (XNotNil (XVar "err")) [TReturn []] []
      :: (body ++ [TAssign [XVar "err"] (XField (XVar "iterator") "Error"); TReturn []])%list /\ In ("err", "error") (fn_results fn)).
