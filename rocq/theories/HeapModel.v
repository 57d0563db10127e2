(** Model of the memory used by the Go code generated for builders and lists: the same functions as in ObjectsModel.v, but
    with explicit pointers, so that it is possible to know what is shared by objects, builders and the code that uses them.

    Simplifications: slices always contain the complete array, as the ones created with [make]; and the values of type
    [interface{}] are considered values, not pointers. *)
From Coq Require Import Ascii String Bool Arith ZArith NArith List.
From Verif Require Import GoStrings GoMap NamesModel ConceptsModel ChecksModel ObjectsModel.
Import ListNotations.
Local Open Scope string_scope.

(** * Memory *)

(** What is stored in fields and elements: a scalar, nil or the address of something. *)
Inductive ref :=
| RScalar (s : scalar)
| RNil
| RPtr (a : nat).

(** What is stored at an address: an object or builder (types_generator.go:333-348, builders_generator.go:219-234), the array
    of a slice, a list or list builder (types_generator.go:456-460, builders_generator.go:493-495) or a map. *)
Inductive cell :=
| CObject (o : object_of ref)
| CSlice (l : list ref)
| CList (href : string) (link : bool) (items : ref)
| CMap (l : list (string * ref)).

Definition memory := list cell.

(** Allocation of memory. *)
Definition alloc (c : cell) (m : memory) : memory * ref := ((m ++ [c])%list, RPtr (length m)).

(** Assignment. *)
Definition store (a : nat) (c : cell) (m : memory) : memory := set_nth a c m.

(** The zero values of the fields, as in [field_zero]. *)
Definition ref_zero (v : version) (k : key) : ref :=
  match field_zero v k with VScalar s => RScalar s | _ => RNil end.

(** * Loops *)

(** Something that allocates memory and returns a value. *)
Definition doing := memory -> outcome (memory * ref).

(** Does several things in order. *)
Fixpoint run_all (l : list doing) (m : memory) : outcome (memory * list ref) :=
  match l with
  | [] => Done (m, [])
  | f :: l =>
      match f m with
      | Done (m, r) =>
          match run_all l m with
          | Done (m, rs) => Done (m, r :: rs)
          | Panics => Panics
          | OutOfFuel => OutOfFuel
          end
      | Panics => Panics
      | OutOfFuel => OutOfFuel
      end
  end.

(** Does several things and puts the results in a new cell.  Simplification: the generated code allocates the cell before. *)
Definition run_new (l : list doing) (f : list ref -> cell) : doing := fun m =>
  match run_all l m with
  | Done (m, rs) => Done (alloc (f rs) m)
  | Panics => Panics
  | OutOfFuel => OutOfFuel
  end.

(** * Builders *)

(** builders_generator.go:237-239: new builder. *)
Definition new_ref (v : version) (t : typ) : cell :=
  CObject (MkObject 0 "" "" (map (fun a => ref_zero v (a_type a)) (t_attrs t))).

(** Calls to the methods of a builder, with their arguments; variadic setters receive the address of the slice, or nil. *)
Inductive ref_call :=
| RefLink (b : bool)
| RefID (s : string)
| RefHREF (s : string)
| RefSet (i : nat) (r : ref).

(** builders_generator.go:242-263 and 278-330: the setters of the builder at an address. *)
Definition call_ref (v : version) (t : typ) (a : nat) (c : ref_call) (m : memory) : memory :=
  match nth_error m a with
  | Some (CObject b) =>
      match c with
      | RefLink _ => store a (CObject (MkObject (set_bit (o_bits b) 1) (o_id b) (o_href b) (o_fields b))) m
      | RefID s => store a (CObject (MkObject (set_bit (o_bits b) 2) s (o_href b) (o_fields b))) m
      | RefHREF s => store a (CObject (MkObject (set_bit (o_bits b) 4) (o_id b) s (o_fields b))) m
      | RefSet i r =>
          match nth_error (t_attrs t) i with
          | None => m
          | Some x =>
              let on := set_bit (o_bits b) (bit_mask t i) in
              let off := clear_bit (o_bits b) (bit_mask t i) in
              match type_at (a_type x) v with
              | None => m
              | Some tx =>
                  if is_list tx then
                    if a_link x then store a (CObject (MkObject on (o_id b) (o_href b) (set_nth i r (o_fields b)))) m
                    else
                      let values := match r with RPtr p => match nth_error m p with Some (CSlice l) => l | _ => [] end | _ => [] end in
                      let '(m, s) := alloc (CSlice values) m in
                      store a (CObject (MkObject on (o_id b) (o_href b) (set_nth i s (o_fields b)))) m
                  else
                    let bits := if is_scalar tx then on else match r with RNil => off | _ => on end in
                    store a (CObject (MkObject bits (o_id b) (o_href b) (set_nth i r (o_fields b)))) m
              end
          end
      end
  | _ => m
  end.

(** builders_generator.go:333-393, [Copy], for a field of a new builder.  The fuel is the depth of the object: the generated
    code doesn't terminate for objects that contain themselves. *)
Fixpoint copy_ref (fuel : nat) (v : version) (k : key) (link : bool) (r : ref) (m : memory) {struct fuel} : outcome (memory * ref) :=
  match fuel with
  | 0 => OutOfFuel
  | S fuel =>
      let copy_new := (* NewX().Copy(r) *)
        fun (k : key) (r : ref) (m : memory) =>
          match r with
          | RNil => match type_at k v with Some t => Done (alloc (new_ref v t) m) | None => Done (m, RNil) end
          | _ => copy_ref fuel v k false r m
          end in
      match type_at k v with
      | None => Done (m, r)
      | Some t =>
          if is_scalar t then Done (m, r)
          else
            match r with
            | RPtr a =>
                if is_struct t then
                  match nth_error m a with
                  | Some (CObject o) =>
                      run_new (zip_with (fun x y => copy_ref fuel v (a_type x) (a_link x) y) (t_attrs t) (o_fields o))
                        (fun fs => CObject (MkObject (o_bits o) (if is_class t then o_id o else "") (if is_class t then o_href o else "") fs)) m
                  | _ => Done (m, RNil)
                  end
                else
                  match type_at (elem_key t) v with
                  | None => Done (m, RNil)
                  | Some te =>
                      if is_list t then
                        if link then
                          match nth_error m a with
                          | Some (CList _ _ s) => (* builders_generator.go:521-531 *)
                              match s with
                              | RPtr p =>
                                  match nth_error m p with
                                  | Some (CSlice l) =>
                                      match run_new (map (copy_new (elem_key t)) l) CSlice m with
                                      | Done (m, s) => Done (alloc (CList "" false s) m)
                                      | Panics => Panics
                                      | OutOfFuel => OutOfFuel
                                      end
                                  | _ => Done (alloc (CList "" false RNil) m)
                                  end
                              | _ => Done (alloc (CList "" false RNil) m)
                              end
                          | _ => Done (m, RNil)
                          end
                        else
                          match nth_error m a with
                          | Some (CSlice l) =>
                              if is_scalar te then Done (alloc (CSlice l) m)
                              else if is_struct te then run_new (map (copy_new (elem_key t)) l) CSlice m
                              else Done (m, RNil)
                          | _ => Done (m, RNil)
                          end
                      else
                        match nth_error m a with
                        | Some (CMap (e :: l)) =>
                            if is_scalar te then Done (alloc (CMap (e :: l)) m)
                            else if is_struct te then
                              run_new (map (fun p => copy_new (elem_key t) (snd p)) (e :: l)) (fun rs => CMap (combine (map fst (e :: l)) rs)) m
                            else Done (m, RNil)
                        | _ => Done (m, RNil)
                        end
                  end
            | _ => Done (m, RNil)
            end
      end
  end.

(** builders_generator.go:396-460, [Build], for a field. *)
Fixpoint build_ref (fuel : nat) (v : version) (k : key) (link : bool) (r : ref) (m : memory) {struct fuel} : outcome (memory * ref) :=
  match fuel with
  | 0 => OutOfFuel
  | S fuel =>
      let build_item := (* r.Build() *)
        fun (k : key) (r : ref) (m : memory) => match r with RNil => Panics | _ => build_ref fuel v k false r m end in
      match type_at k v with
      | None => Done (m, RNil)
      | Some t =>
          if is_scalar t then Done (m, r)
          else
            match r with
            | RPtr a =>
                if is_struct t then
                  match nth_error m a with
                  | Some (CObject b) =>
                      run_new (zip_with (fun x y => build_ref fuel v (a_type x) (a_link x) y) (t_attrs t) (o_fields b))
                        (fun fs => CObject (MkObject (o_bits b) (if is_class t then o_id b else "") (if is_class t then o_href b else "") fs)) m
                  | _ => Done (m, RNil)
                  end
                else
                  match type_at (elem_key t) v with
                  | None => Done (m, RNil)
                  | Some te =>
                      if is_list t then
                        if link then
                          match nth_error m a with
                          | Some (CList _ _ s) => (* builders_generator.go:535-547 *)
                              let items := match s with RPtr p => match nth_error m p with Some (CSlice l) => l | _ => [] end | _ => [] end in
                              match run_new (map (build_item (elem_key t)) items) CSlice m with
                              | Done (m, s) => Done (alloc (CList "" false s) m)
                              | Panics => Panics
                              | OutOfFuel => OutOfFuel
                              end
                          | _ => Done (m, RNil)
                          end
                        else
                          match nth_error m a with
                          | Some (CSlice l) =>
                              if is_scalar te then Done (alloc (CSlice l) m)
                              else if is_struct te then run_new (map (build_item (elem_key t)) l) CSlice m
                              else Done (m, RNil)
                          | _ => Done (m, RNil)
                          end
                      else
                        match nth_error m a with
                        | Some (CMap l) =>
                            if is_scalar te then Done (alloc (CMap l) m)
                            else if is_struct te then
                              run_new (map (fun p => build_item (elem_key t) (snd p)) l) (fun rs => CMap (combine (map fst l) rs)) m
                            else Done (m, RNil)
                        | _ => Done (m, RNil)
                        end
                  end
            | _ => Done (m, RNil)
            end
      end
  end.

(** builders_generator.go:396-460, [Build], for the builder at an address. *)
Definition build_at (fuel : nat) (v : version) (t : typ) (a : nat) (m : memory) : outcome (memory * ref) :=
  match nth_error m a with
  | Some (CObject b) =>
      run_new (zip_with (fun x y => build_ref fuel v (a_type x) (a_link x) y) (t_attrs t) (o_fields b))
        (fun fs => CObject (MkObject (o_bits b) (if is_class t then o_id b else "") (if is_class t then o_href b else "") fs)) m
  | _ => Panics
  end.

(** The lists and maps that the templates don't copy, as in [not_copied]. *)
Definition skipped (v : version) (k : key) (link : bool) (r : ref) (m : memory) : bool :=
  match type_at k v with
  | None => false
  | Some t =>
      match type_at (elem_key t) v with
      | None => false
      | Some te =>
          (is_list t && negb link && negb (match r with RNil => true | _ => false end) ||
           is_map t && match r with RPtr a => match nth_error m a with Some (CMap (_ :: _)) => true | _ => false end | _ => false end)
          && negb (is_scalar te) && negb (is_struct te)
      end
  end.

(** builders_generator.go:333-393, [Copy], of the object given (or nil) to the builder at an address. *)
Definition copy_at (fuel : nat) (v : version) (t : typ) (a : nat) (r : ref) (m : memory) : outcome memory :=
  match r with
  | RPtr p =>
      match nth_error m a, nth_error m p with
      | Some (CObject b), Some (CObject o) =>
          match run_all (zip_with (fun xp y m => let '(x, prev) := xp in
                    if skipped v (a_type x) (a_link x) y m then Done (m, prev) else copy_ref fuel v (a_type x) (a_link x) y m)
                  (combine (t_attrs t) (o_fields b)) (o_fields o)) m with
          | Done (m, fs) =>
              Done (store a (CObject (MkObject (o_bits o) (if is_class t then o_id o else o_id b) (if is_class t then o_href o else o_href b) fs)) m)
          | Panics => Panics
          | OutOfFuel => OutOfFuel
          end
      | _, _ => Panics
      end
  | _ => Done m
  end.

(** * Lists *)

(** types_generator.go:549-558, [Slice]; nil is the nil list. *)
Definition slice_at (r : ref) (m : memory) : memory * ref :=
  match r with
  | RPtr a =>
      match nth_error m a with
      | Some (CList _ _ (RPtr p)) => match nth_error m p with Some (CSlice l) => alloc (CSlice l) m | _ => alloc (CSlice []) m end
      | _ => alloc (CSlice []) m
      end
  | _ => alloc (CSlice []) m
  end.

(** types_generator.go:522-527, [Items]. *)
Definition items_at (r : ref) (m : memory) : ref :=
  match r with
  | RPtr a => match nth_error m a with Some (CList _ _ s) => s | _ => RNil end
  | _ => RNil
  end.

(** types_generator.go:507-519, [SetLink], [SetHREF] and [SetItems]. *)
Definition set_link_at (b : bool) (a : nat) (m : memory) : memory :=
  match nth_error m a with Some (CList h _ s) => store a (CList h b s) m | _ => m end.
Definition set_href_at (h : string) (a : nat) (m : memory) : memory :=
  match nth_error m a with Some (CList _ b s) => store a (CList h b s) m | _ => m end.
Definition set_items_at (s : ref) (a : nat) (m : memory) : memory :=
  match nth_error m a with Some (CList h b _) => store a (CList h b s) m | _ => m end.

(** * What the code that uses builders and lists can do *)

Inductive step :=
| Call (t : typ) (a : nat) (c : ref_call)          (* a setter of the builder at an address *)
| CopyTo (t : typ) (a : nat) (r : ref)             (* [Copy] of an object into the builder at an address *)
| BuildFrom (t : typ) (a : nat)                    (* [Build] of the builder at an address *)
| SliceOf (r : ref)                                (* [Slice] of a list *)
| SetList (a : nat) (link : bool) (href : string) (s : ref)  (* the setters of the list at an address *)
| Make (c : cell)                                  (* a new builder, list, slice or map *)
| Assign (a : nat) (c : cell).                     (* an element of the slice or map at an address *)

(** The address that is modified by a step, if any. *)
Definition modified (s : step) : option nat :=
  match s with
  | Call _ a _ | CopyTo _ a _ | SetList a _ _ _ | Assign a _ => Some a
  | BuildFrom _ _ | SliceOf _ | Make _ => None
  end.

(** Performs a step; what panics or doesn't terminate ends the execution. *)
Definition perform (fuel : nat) (v : version) (s : step) (m : memory) : outcome memory :=
  match s with
  | Call t a c => Done (call_ref v t a c m)
  | CopyTo t a r => copy_at fuel v t a r m
  | BuildFrom t a => match build_at fuel v t a m with Done (m, _) => Done m | Panics => Panics | OutOfFuel => OutOfFuel end
  | SliceOf r => Done (fst (slice_at r m))
  | SetList a link href s => Done (set_items_at s a (set_href_at href a (set_link_at link a m)))
  | Make c => Done (fst (alloc c m))
  | Assign a c => Done (store a c m)
  end.

Fixpoint perform_all (fuel : nat) (v : version) (l : list step) (m : memory) : outcome memory :=
  match l with
  | [] => Done m
  | s :: l => match perform fuel v s m with Done m => perform_all fuel v l m | Panics => Panics | OutOfFuel => OutOfFuel end
  end.
