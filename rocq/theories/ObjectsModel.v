(** Model of the Go code generated for types and builders: the templates of
    pkg/generators/golang/types_generator.go and builders_generator.go, and the presence bitmap of
    types_calculator.go.

    The templates are instantiated for a type of a version; the model gives the behaviour of the
    generated functions, parametrised by the version and the type.  Pointers, slices and maps are modelled
    by the values that they refer to: the sharing of memory between objects and builders isn't modelled
    here (see HeapModel.v).  Go code that doesn't compile (types with repeated attributes, for example)
    isn't considered. *)
From Coq Require Import Ascii String Bool Arith ZArith NArith List.
From Verif Require Import GoStrings GoMap NamesModel ConceptsModel ReporterModel BindingModel GoNamesModel GoTimeModel.
Import ListNotations.
Local Open Scope string_scope.

(** * Values *)

(** Values of type [interface{}], as produced by the JSON decoder. *)
Inductive any :=
| ANil
| ABool (b : bool)
| AFloat (bits : Z)
| AString (s : string)
| ASlice (l : list any)
| AMap (l : list (string * any)).

(** Values of the Go types that correspond to scalar types, pkg/generators/golang/types_calculator.go:160-205
    ([ValueReference]).  The values of enumerated types are strings; the values of type [float64] are
    represented by their bits. *)
Inductive scalar :=
| SBool (b : bool)
| SInt (z : Z)
| SFloat (bits : Z)
| SString (s : string)
| SDate (d : date)
| SAny (a : any).

(** Structs generated for objects (types_generator.go:333-348) and for builders
    (builders_generator.go:219-234): the bitmap, the identifier, the link and the fields in the order of
    the attributes of the type.  For types that aren't classes the identifier and the link don't exist,
    they are empty in the model. *)
Record object_of (A : Type) := MkObject { o_bits : N; o_id : string; o_href : string; o_fields : list A }.
Arguments MkObject {A}. Arguments o_bits {A}. Arguments o_id {A}. Arguments o_href {A}. Arguments o_fields {A}.

(** Values of the fields of objects and builders.  Maps are represented by their entries sorted by key. *)
Inductive value :=
| VScalar (s : scalar)
| VNil                                                   (* nil pointer, slice or map *)
| VObject (o : object_of value)                          (* pointer to an object or to a builder *)
| VSlice (l : list value)
| VList (href : string) (link : bool) (items : value)    (* pointer to a list or to a list builder *)
| VMap (l : list (string * value)).

Definition object := object_of value.

(** * Presence bitmap *)

(** Go expression [1 << index] of type [int]. *)
Definition go_shift (index : nat) : Z :=
  if Nat.ltb index 63 then (2 ^ Z.of_nat index)%Z else if Nat.eqb index 63 then (- 2 ^ 63)%Z else 0%Z.

(** pkg/generators/golang/types_calculator.go:471-489, [BitMask], for the attribute in the given
    position. *)
Definition bit_mask (t : typ) (i : nat) : Z := go_shift ((if is_class t then 3 else 0) + i).

(** pkg/generators/golang/types_calculator.go:531-545, [bitmapSize]. *)
Definition bitmap_size (t : typ) : nat :=
  if Nat.leb (length (t_attrs t) + (if is_class t then 3 else 0)) 32 then 32 else 64.

(** pkg/generators/golang/types_calculator.go:493-527, [BitmapType]: the text of the type and the reports. *)
Definition bitmap_type (t : typ) : string * list report :=
  if negb (is_struct t) then ("", [err ("Don't know how to make package name for type '" ++ name_string (t_name t) ++ "'")])
  else
    let max := 64 - (if is_class t then 3 else 0) in
    let count := length (t_attrs t) in
    if Nat.ltb max count then
      ("", [err ("Struct type '" ++ name_string (t_name t) ++ "' has more " ++ itoa count ++
                 " attributes, but at most " ++ itoa max ++ " attributes are supported")])
    else ("uint" ++ itoa (bitmap_size t), []).

(** The Go expression [bitmap_&mask != 0]. *)
Definition has_bit (bits : N) (mask : Z) : bool := negb (N.eqb (N.land bits (Z.to_N mask)) 0).

(** The Go statement [bitmap_ |= mask]. *)
Definition set_bit (bits : N) (mask : Z) : N := N.lor bits (Z.to_N mask).

(** The Go statement [bitmap_ &^= mask]. *)
Definition clear_bit (bits : N) (mask : Z) : N := N.ldiff bits (Z.to_N mask).

(** * Zero values *)

(** The zero value of the Go type used for the fields, builders_generator.go and types_generator.go
    [fieldType], types_calculator.go:160-240 [ValueReference]. *)
Definition field_zero (v : version) (k : key) : value :=
  if is_builtin nBoolean k then VScalar (SBool false)
  else if is_builtin nInteger k then VScalar (SInt 0)
  else if is_builtin nLong k then VScalar (SInt 0)
  else if is_builtin nFloat k then VScalar (SFloat 0)
  else if is_builtin nString k then VScalar (SString "")
  else if is_builtin nInterface k then VScalar (SAny ANil)
  else if is_builtin nDate k then VScalar (SDate zero_date)
  else
    match type_at k v with
    | Some t => if is_enum t then VScalar (SString "") else VNil
    | None => VNil
    end.

(** pkg/generators/golang/types_calculator.go:405-432, [ZeroValue]: the value of the generated literal. *)
Definition zero_value (v : version) (k : key) : value :=
  match type_at k v with
  | None => VNil
  | Some t =>
      if is_struct t || is_list t || is_map t then VNil
      else if is_interface t then VScalar (SAny ANil)
      else if is_enum t then VScalar (SString "")
      else if is_builtin nBoolean k then VScalar (SBool false)
      else if is_builtin nInteger k then VScalar (SInt 0)
      else if is_builtin nLong k then VScalar (SInt 0)
      else if is_builtin nFloat k then VScalar (SFloat 0)
      else if is_builtin nDate k then VScalar (SDate zero_date)
      else if is_builtin nString k then VScalar (SString "")
      else VNil
  end.

(** * Objects *)

(** types_generator.go:350-360, [Kind]; [None] is the nil pointer. *)
Definition object_kind (t : typ) (o : option object) : string :=
  match o with
  | None => object_name t ++ "Nil"
  | Some o => if has_bit (o_bits o) 1 then object_name t ++ "Link" else object_name t
  end.

(** types_generator.go:362-365, [Link]. *)
Definition object_link (o : option object) : bool :=
  match o with None => false | Some o => has_bit (o_bits o) 1 end.

(** types_generator.go:367-373, [ID]. *)
Definition object_id (o : option object) : string :=
  match o with
  | Some o => if has_bit (o_bits o) 2 then o_id o else ""
  | None => ""
  end.

(** types_generator.go:375-383, [GetID]. *)
Definition get_id (o : option object) : string * bool :=
  match o with
  | Some o => if has_bit (o_bits o) 2 then (o_id o, true) else ("", false)
  | None => ("", false)
  end.

(** types_generator.go:385-391, [HREF]. *)
Definition object_href (o : option object) : string :=
  match o with
  | Some o => if has_bit (o_bits o) 4 then o_href o else ""
  | None => ""
  end.

(** types_generator.go:393-401, [GetHREF]. *)
Definition get_href (o : option object) : string * bool :=
  match o with
  | Some o => if has_bit (o_bits o) 4 then (o_href o, true) else ("", false)
  | None => ("", false)
  end.

(** types_generator.go:404-411 and builders_generator.go:267-274, [Empty]. *)
Definition object_empty (t : typ) (o : option object) : bool :=
  match o with
  | None => true
  | Some o => if is_class t then N.eqb (clear_bit (o_bits o) 1) 0 else N.eqb (o_bits o) 0
  end.

(** The field for the attribute in the given position. *)
Definition field (v : version) (t : typ) (i : nat) (o : object) : value :=
  nth i (o_fields o) (match nth_error (t_attrs t) i with Some a => field_zero v (a_type a) | None => VNil end).

(** types_generator.go:420-429, getter of the attribute in the given position. *)
Definition object_attr (v : version) (t : typ) (i : nat) (a : attribute) (o : option object) : value :=
  match o with
  | Some o => if has_bit (o_bits o) (bit_mask t i) then field v t i o else zero_value v (a_type a)
  | None => zero_value v (a_type a)
  end.

(** types_generator.go:431-441, getter of the attribute in the given position with the presence flag. *)
Definition get_attr (v : version) (t : typ) (i : nat) (a : attribute) (o : option object) : value * bool :=
  match o with
  | Some o => if has_bit (o_bits o) (bit_mask t i) then (field v t i o, true) else (field_zero v (a_type a), false)
  | None => (field_zero v (a_type a), false)
  end.

(** * Lists *)

(** Lists: types_generator.go:456-460.  [None] is the nil pointer, the nil slice is [VNil]. *)
Record list_object := MkList { l_href : string; l_link : bool; l_items : option (list value) }.

(** The elements of a slice, nothing for the nil slice. *)
Definition slice_items (s : option (list value)) : list value :=
  match s with Some l => l | None => [] end.

(** types_generator.go:464-472, [Kind]; [t] is the type of the elements. *)
Definition list_kind (t : typ) (l : option list_object) : string :=
  match l with
  | None => object_name t ++ "ListNil"
  | Some l => if l_link l then object_name t ++ "ListLink" else object_name t ++ "List"
  end.

(** types_generator.go:475-477, [Link]. *)
Definition list_link (l : option list_object) : bool := match l with Some l => l_link l | None => false end.

(** types_generator.go:480-485, [HREF]. *)
Definition list_href (l : option list_object) : string := match l with Some l => l_href l | None => "" end.

(** types_generator.go:489-495, [GetHREF]. *)
Definition get_list_href (l : option list_object) : string * bool :=
  match l with
  | Some l => if negb (String.eqb (l_href l) "") then (l_href l, true) else ("", false)
  | None => ("", false)
  end.

(** types_generator.go:499-504, [Len]. *)
Definition list_len (l : option list_object) : nat :=
  match l with Some l => length (slice_items (l_items l)) | None => 0 end.

(** types_generator.go:507-519, [SetLink], [SetHREF] and [SetItems]; they panic with nil lists. *)
Definition set_link (b : bool) (l : list_object) : list_object := MkList (l_href l) b (l_items l).
Definition set_href (s : string) (l : list_object) : list_object := MkList s (l_link l) (l_items l).
Definition set_items (s : option (list value)) (l : list_object) : list_object := MkList (l_href l) (l_link l) s.

(** types_generator.go:522-527, [Items]. *)
Definition list_items (l : option list_object) : option (list value) :=
  match l with Some l => l_items l | None => None end.

(** types_generator.go:531-534, [Empty] of lists; builders_generator.go:520-523 is the same for builders of lists. *)
Definition list_empty (l : option list_object) : bool :=
  match l with Some l => Nat.eqb (length (slice_items (l_items l))) 0 | None => true end.

(** types_generator.go:536-541, [Get]; the index is an [int]. *)
Definition list_get (i : Z) (l : option list_object) : value :=
  match l with
  | None => VNil
  | Some l =>
      if Z.ltb i 0 || Z.leb (Z.of_nat (length (slice_items (l_items l)))) i then VNil
      else nth (Z.to_nat i) (slice_items (l_items l)) VNil
  end.

(** types_generator.go:549-558, [Slice]. *)
Definition list_slice (l : option list_object) : list value :=
  match l with Some l => slice_items (l_items l) | None => [] end.

(** The loop of [Each]: the callback changes a state and returns whether to continue. *)
Fixpoint each_loop {S : Type} (f : S -> value -> S * bool) (s : S) (l : list value) : S :=
  match l with
  | [] => s
  | x :: r => let '(s, go) := f s x in if go then each_loop f s r else s
  end.

(** types_generator.go:563-572, [Each]. *)
Definition list_each {S : Type} (f : S -> value -> S * bool) (s : S) (l : option list_object) : S :=
  match l with Some l => each_loop f s (slice_items (l_items l)) | None => s end.

(** The loop of [Range]. *)
Fixpoint range_loop {S : Type} (f : S -> nat -> value -> S * bool) (s : S) (i : nat) (l : list value) : S :=
  match l with
  | [] => s
  | x :: r => let '(s, go) := f s i x in if go then range_loop f s (i + 1) r else s
  end.

(** types_generator.go:577-586, [Range]. *)
Definition list_range {S : Type} (f : S -> nat -> value -> S * bool) (s : S) (l : option list_object) : S :=
  match l with Some l => range_loop f s 0 (slice_items (l_items l)) | None => s end.

(** * Builders *)

(** builders_generator.go:237-239: new builder. *)
Definition new_builder (v : version) (t : typ) : object :=
  MkObject 0 "" "" (map (fun a => field_zero v (a_type a)) (t_attrs t)).

(** Replaces the element in the given position. *)
Fixpoint set_nth {A : Type} (i : nat) (x : A) (l : list A) : list A :=
  match l, i with
  | [], _ => []
  | _ :: r, 0 => x :: r
  | y :: r, S i => y :: set_nth i x r
  end.

(** Calls to the methods of a builder. *)
Inductive call :=
| CallLink (b : bool)
| CallID (s : string)
| CallHREF (s : string)
| CallSet (i : nat) (x : value).

(** builders_generator.go:242-263 and 278-330: the setters.  Variadic setters receive the slice of the
    values, and copy it to a new slice. *)
Definition apply_call (v : version) (t : typ) (b : object) (c : call) : object :=
  match c with
  | CallLink _ => MkObject (set_bit (o_bits b) 1) (o_id b) (o_href b) (o_fields b)
  | CallID s => MkObject (set_bit (o_bits b) 2) s (o_href b) (o_fields b)
  | CallHREF s => MkObject (set_bit (o_bits b) 4) (o_id b) s (o_fields b)
  | CallSet i x =>
      match nth_error (t_attrs t) i with
      | None => b
      | Some a =>
          let on := set_bit (o_bits b) (bit_mask t i) in
          let off := clear_bit (o_bits b) (bit_mask t i) in
          match type_at (a_type a) v with
          | None => b
          | Some ta =>
              if is_list ta then
                if a_link a then MkObject on (o_id b) (o_href b) (set_nth i x (o_fields b))
                else
                  let copied := match x with VNil => VSlice [] | _ => x end in
                  MkObject on (o_id b) (o_href b) (set_nth i copied (o_fields b))
              else
                let bits :=
                  if is_scalar ta then on
                  else match x with VNil => off | _ => on end in
                MkObject bits (o_id b) (o_href b) (set_nth i x (o_fields b))
          end
      end
  end.

Definition apply_calls (v : version) (t : typ) (b : object) (l : list call) : object :=
  fold_left (apply_call v t) l b.

(** The key of the element type of a list or map type.  Lists and maps always have an element type. *)
Definition elem_key (t : typ) : key := match t_element t with Some k => k | None => "" end.

(** Combines two lists. *)
Definition zip_with {A B C : Type} (f : A -> B -> C) : list A -> list B -> list C :=
  fix go (l : list A) (m : list B) {struct m} : list C :=
    match m with
    | [] => []
    | b :: m => match l with a :: l => f a b :: go l m | [] => [] end
    end.

(** builders_generator.go:333-393, [Copy], for a field of a new builder: the value assigned to the field
    of the builder for the attribute, for the given value of the field of the object. *)
Fixpoint copy_value (v : version) (k : key) (link : bool) (x : value) {struct x} : value :=
  let copy_new := (* NewX().Copy(x) *)
    fun (k : key) (x : value) =>
      match x with
      | VNil => match type_at k v with Some t => VObject (new_builder v t) | None => VNil end
      | _ => copy_value v k false x
      end in
  match type_at k v with
  | None => x
  | Some t =>
      if is_scalar t then x
      else if is_struct t then
        match x with
        | VObject o =>
            VObject (MkObject (o_bits o) (if is_class t then o_id o else "") (if is_class t then o_href o else "")
              (zip_with (fun a y => copy_value v (a_type a) (a_link a) y) (t_attrs t) (o_fields o)))
        | _ => VNil
        end
      else
        match type_at (elem_key t) v with
        | None => VNil
        | Some te =>
            if is_list t then
              if link then
                match x with
                | VList _ _ s => (* builders_generator.go:521-531 *)
                    VList "" false (match s with VSlice l => VSlice (map (copy_new (elem_key t)) l) | _ => VNil end)
                | _ => VNil
                end
              else
                match x with
                | VSlice l =>
                    if is_scalar te then x
                    else if is_struct te then VSlice (map (copy_new (elem_key t)) l)
                    else VNil
                | _ => VNil
                end
            else
              match x with
              | VMap (e :: l) =>
                  if is_scalar te then x
                  else if is_struct te then VMap (map (fun '(k, y) => (k, copy_new (elem_key t) y)) (e :: l))
                  else VNil
              | _ => VNil
              end
        end
  end.

(** The lists and maps whose elements aren't scalars or structs: the templates don't generate code to copy
    them, so the previous value stays in the builder. *)
Definition not_copied (v : version) (k : key) (link : bool) (x : value) : bool :=
  match type_at k v with
  | None => false
  | Some t =>
      match type_at (elem_key t) v with
      | None => false
      | Some te =>
          (is_list t && negb link && negb (match x with VNil => true | _ => false end) ||
           is_map t && match x with VMap (_ :: _) => true | _ => false end)
          && negb (is_scalar te) && negb (is_struct te)
      end
  end.

(** builders_generator.go:333-393, [Copy]. *)
Definition copy_object (v : version) (t : typ) (b : object) (o : option object) : object :=
  match o with
  | None => b
  | Some o =>
      MkObject (o_bits o) (if is_class t then o_id o else o_id b) (if is_class t then o_href o else o_href b)
        (zip_with (fun '(a, prev) x => if not_copied v (a_type a) (a_link a) x then prev else copy_value v (a_type a) (a_link a) x)
           (combine (t_attrs t) (o_fields b)) (o_fields o))
  end.

(** Results of all the elements of a list, if none of them panics. *)
Fixpoint sequence {A : Type} (l : list (option A)) : option (list A) :=
  match l with
  | [] => Some []
  | None :: _ => None
  | Some a :: r => match sequence r with Some r => Some (a :: r) | None => None end
  end.

(** builders_generator.go:396-460, [Build], for a field: the value assigned to the field of the object for
    the given value of the field of the builder.  [None] is the panic of calling [Build] with a nil
    builder, which happens for the nil elements of lists and maps. *)
Fixpoint build_value (v : version) (k : key) (link : bool) (x : value) {struct x} : option value :=
  let build_item := (* x.Build() *)
    fun (k : key) (x : value) => match x with VNil => None | _ => build_value v k false x end in
  match type_at k v with
  | None => Some VNil
  | Some t =>
      if is_scalar t then Some x
      else if is_struct t then
        match x with
        | VObject b =>
            match sequence (zip_with (fun a y => build_value v (a_type a) (a_link a) y) (t_attrs t) (o_fields b)) with
            | None => None
            | Some fs => Some (VObject (MkObject (o_bits b) (if is_class t then o_id b else "") (if is_class t then o_href b else "") fs))
            end
        | _ => Some VNil
        end
      else
        match type_at (elem_key t) v with
        | None => Some VNil
        | Some te =>
            if is_list t then
              if link then
                match x with
                | VList _ _ s => (* builders_generator.go:535-547 *)
                    match sequence (match s with VSlice l => map (build_item (elem_key t)) l | _ => [] end) with
                    | None => None
                    | Some l => Some (VList "" false (VSlice l))
                    end
                | _ => Some VNil
                end
              else
                match x with
                | VSlice l =>
                    if is_scalar te then Some x
                    else if is_struct te then
                      match sequence (map (build_item (elem_key t)) l) with
                      | None => None
                      | Some l => Some (VSlice l)
                      end
                    else Some VNil
                | _ => Some VNil
                end
            else
              match x with
              | VMap l =>
                  if is_scalar te then Some x
                  else if is_struct te then
                    match sequence (map (fun '(_, y) => build_item (elem_key t) y) l) with
                    | None => None
                    | Some ys => Some (VMap (combine (map fst l) ys))
                    end
                  else Some VNil
              | _ => Some VNil
              end
        end
  end.

(** builders_generator.go:396-460, [Build]. *)
Definition build_object (v : version) (t : typ) (b : object) : option object :=
  match sequence (zip_with (fun a y => build_value v (a_type a) (a_link a) y) (t_attrs t) (o_fields b)) with
  | None => None
  | Some fs => Some (MkObject (o_bits b) (if is_class t then o_id b else "") (if is_class t then o_href b else "") fs)
  end.
