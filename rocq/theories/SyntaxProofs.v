(** Proofs about the parser: it finds the tree of a sequence of tokens when there is one. *)
From Coq Require Import Ascii String Bool Arith ZArith NArith Lia List.
From Verif Require Import GoStrings TextModel TextSpec ReaderModel SyntaxModel SyntaxSpec.
Import ListNotations.
Local Open Scope string_scope.

Definition sound {A} (p : parser A) (f : A -> language) : Prop :=
  forall l x r, p l = POk x r -> exists pre, l = (pre ++ r)%list /\ f x pre.
Definition complete {A} (p : parser A) (f : A -> language) (ok : list placed -> Prop) : Prop :=
  forall x pre r, f x pre -> ok r -> p (pre ++ r)%list = POk x r.
Definition no_fuel {A} (p : parser A) : Prop := forall l, p l <> PFuel.
Definition leads {A} (f : A -> language) (first : token -> bool) : Prop :=
  forall x pre, f x pre -> forall r, next_is first (pre ++ r)%list = true.
Definition any (l : list placed) : Prop := True.
Definition not_next (first : token -> bool) (l : list placed) : Prop := next_is first l = false.

Lemma token_eqb_eq a b : token_eqb a b = true <-> a = b.
Proof.
  destruct a, b; cbn; split; intros H; try discriminate; try (apply String.eqb_eq in H; now subst); try (apply Ascii.eqb_eq in H; now subst);
  injection H as <-; try apply String.eqb_refl; apply Ascii.eqb_refl.
Qed.
Lemma token_eqb_refl a : token_eqb a a = true. Proof. now apply token_eqb_eq. Qed.

Lemma next_app first pre r : pre <> [] -> next_is first (pre ++ r)%list = next_is first pre.
Proof. destruct pre; [easy|]. reflexivity. Qed.
Lemma leads_nonempty {A} (f : A -> language) first x pre : leads f first -> f x pre -> pre <> [].
Proof. intros L H ->. specialize (L x [] H []). discriminate. Qed.

(** Tokens. *)
Lemma expect_sound t : sound (expect t) (fun _ => tok t).
Proof.
  intros [|(n, u) l] x r; cbn; [discriminate|]. destruct (token_eqb t u) eqn:E; [|discriminate]. intros [= _ <-].
  apply token_eqb_eq in E as <-. exists [(n, t)]. split; [reflexivity|]. now exists n.
Qed.
Lemma expect_step t n r : expect t ((n, t) :: r) = POk tt r.
Proof. cbn. now rewrite token_eqb_refl. Qed.
Lemma expect_complete t : complete (expect t) (fun _ => tok t) any.
Proof. intros [] pre r (n & ->) _. apply expect_step. Qed.
Lemma expect_fuel t : no_fuel (expect t).
Proof. intros [|(n, u) l]; cbn; [discriminate|]. now destruct (token_eqb t u). Qed.

Lemma optional_sound t : sound (optional t) (fun b => if b then tok t else nothing).
Proof.
  intros [|(n, u) l] x r; cbn.
  - intros [= <- <-]. now exists [].
  - destruct (token_eqb t u) eqn:E; intros [= <- <-].
    + apply token_eqb_eq in E as <-. exists [(n, t)]. split; [reflexivity|]. now exists n.
    + now exists [].
Qed.
Lemma optional_yes t n r : optional t ((n, t) :: r) = POk true r.
Proof. cbn. now rewrite token_eqb_refl. Qed.
Lemma optional_no t r : not_next (token_eqb t) r -> optional t r = POk false r.
Proof. unfold not_next. destruct r as [|(n, u) r]; cbn; [reflexivity|]. now intros ->. Qed.
Lemma optional_fuel t : no_fuel (optional t).
Proof. intros [|(n, u) l]; cbn; [discriminate|]. now destruct (token_eqb t u). Qed.

Lemma identifier_sound : sound p_identifier ident.
Proof.
  intros [|(n, u) l] x r; cbn; [discriminate|]. destruct u; try discriminate. intros [= <- <-]. exists [(n, TIdent s)].
  split; [reflexivity|]. now exists n.
Qed.
Lemma identifier_step n s r : p_identifier ((n, TIdent s) :: r) = POk s r. Proof. reflexivity. Qed.
Lemma identifier_fuel : no_fuel p_identifier.
Proof. intros [|(n, u) l]; cbn; [discriminate|]. now destruct u. Qed.

(** Sequences. *)
Lemma bind_ok {A B} (p : parser A) (f : A -> parser B) l x r :
  bind p f l = POk x r -> exists y m, p l = POk y m /\ f y m = POk x r.
Proof. unfold bind. destruct (p l); try discriminate. eauto. Qed.
Lemma bind_fuel {A B} (p : parser A) (f : A -> parser B) : no_fuel p -> (forall x, no_fuel (f x)) -> no_fuel (bind p f).
Proof. intros P F l. unfold bind. specialize (P l). destruct (p l); [apply F|discriminate|easy]. Qed.
Lemma bind_step {A B} (p : parser A) (f : A -> parser B) l x m : p l = POk x m -> bind p f l = f x m.
Proof. unfold bind. now intros ->. Qed.
Lemma ret_fuel {A} (x : A) : no_fuel (ret x). Proof. discriminate. Qed.

(** Repetitions. *)
Section Many.
  Context {A : Type} (first : token -> bool) (p : parser A) (f : A -> language) (okp : list placed -> Prop).

  Lemma many_loop_sound : sound p f -> forall fuel, sound (many_loop fuel first p) (each f).
  Proof.
    intros S. induction fuel as [|fuel IH]; intros l x r; cbn; destruct (next_is first l); try discriminate;
    try (intros [= <- <-]; now exists []).
    destruct (p l) as [y m| |] eqn:E; try discriminate. apply S in E as (pre & -> & Hy).
    destruct (many_loop fuel first p m) as [ys m'| |] eqn:E; try discriminate. intros [= <- <-].
    apply IH in E as (pre' & -> & Hys). exists (pre ++ pre')%list. rewrite app_assoc. split; [reflexivity|]. now exists pre, pre'.
  Qed.
  Lemma many_sound : sound p f -> sound (many first p) (each f).
  Proof. intros S l. now apply many_loop_sound. Qed.

  Lemma many_loop_rest fuel l x r : many_loop fuel first p l = POk x r -> not_next first r.
  Proof.
    revert l x r. induction fuel as [|fuel IH]; intros l x r; cbn; destruct (next_is first l) eqn:E; try discriminate;
    try (intros [= _ <-]; exact E).
    destruct (p l); try discriminate. destruct (many_loop fuel first p rest) eqn:K; try discriminate. intros [= _ <-]. eauto.
  Qed.
  Lemma many_rest l x r : many first p l = POk x r -> not_next first r.
  Proof. apply many_loop_rest. Qed.

  Lemma many_loop_fuel : sound p f -> leads f first -> no_fuel p ->
    forall fuel l, length l <= fuel -> many_loop fuel first p l <> PFuel.
  Proof.
    intros S L F. induction fuel as [|fuel IH]; intros l Hl; cbn.
    - destruct l; [|cbn in Hl; lia]. discriminate.
    - destruct (next_is first l); [|discriminate]. specialize (F l). destruct (p l) as [y m| |] eqn:E; [|discriminate|easy].
      apply S in E as (pre & -> & Hy). specialize (IH m). assert (pre <> []) by (now apply (leads_nonempty f first y)).
      destruct (many_loop fuel first p m); try discriminate. destruct IH; [|reflexivity]. rewrite app_length in Hl.
      destruct pre; [easy|]. cbn in Hl. lia.
  Qed.
  Lemma many_fuel : sound p f -> leads f first -> no_fuel p -> no_fuel (many first p).
  Proof. intros S L F l. now apply many_loop_fuel. Qed.

  Lemma many_loop_complete : complete p f okp -> leads f first -> (forall r, next_is first r = true -> okp r) ->
    forall xs fuel pre r, each f xs pre -> not_next first r -> okp r -> length pre <= fuel ->
    many_loop fuel first p (pre ++ r)%list = POk xs r.
  Proof.
    intros C L O. induction xs as [|x xs IH]; intros fuel pre r; cbn [each].
    - intros -> N _ _. cbn [app]. unfold not_next in N. destruct fuel; cbn; now rewrite N.
    - intros (a & b & -> & Hx & Hxs) N R Hl. assert (a <> []) by (now apply (leads_nonempty f first x)).
      rewrite app_length in Hl. destruct a as [|t a]; [easy|]. destruct fuel as [|fuel]; [cbn in Hl; lia|].
      cbn [many_loop]. rewrite <- app_assoc. rewrite (L x _ Hx). rewrite (C x _ _ Hx).
      + rewrite (IH fuel b r); try assumption; [reflexivity|]. cbn in Hl. lia.
      + destruct xs as [|x' xs].
        * cbn in Hxs. red in Hxs. subst. exact R.
        * apply O. destruct Hxs as (a' & b' & -> & Hx' & _). rewrite <- app_assoc. now apply (L x').
  Qed.
  Lemma many_complete : complete p f okp -> leads f first -> (forall r, next_is first r = true -> okp r) ->
    complete (many first p) (each f) (fun r => not_next first r /\ okp r).
  Proof. intros C L O xs pre r H (N & R). unfold many. apply many_loop_complete; try assumption. rewrite app_length. lia. Qed.
End Many.

(** Inversion of sequences of tokens. *)
Ltac open_seq :=
  repeat match goal with
  | H : seq _ _ _ |- _ => destruct H as (? & ? & -> & ? & ?)
  | H : tok _ _ |- _ => destruct H as (? & ->)
  | H : word _ _ |- _ => destruct H as (? & ->)
  | H : mark _ _ |- _ => destruct H as (? & ->)
  | H : ident _ _ |- _ => destruct H as (? & ->)
  | H : nothing _ |- _ => red in H; subst
  | H : only _ _ _ |- _ => destruct H as (? & ?)
  end; cbn [app].
Ltac close_seq :=
  repeat match goal with
  | |- seq (tok ?t) ?b (?x :: ?l) => exists [x], l; split; [reflexivity|]; split; [now eexists|]
  | |- seq (word ?t) ?b (?x :: ?l) => exists [x], l; split; [reflexivity|]; split; [now eexists|]
  | |- seq (mark ?t) ?b (?x :: ?l) => exists [x], l; split; [reflexivity|]; split; [now eexists|]
  | |- seq (ident ?t) ?b (?x :: ?l) => exists [x], l; split; [reflexivity|]; split; [now eexists|]
  end.

Lemma seq_in (a b : language) x y : a x -> b y -> seq a b (x ++ y)%list.
Proof. intros Ha Hb. now exists x, y. Qed.
Lemma nothing_in : nothing []. Proof. reflexivity. Qed.
Lemma tok_in t n : tok t [(n, t)]. Proof. now exists n. Qed.
