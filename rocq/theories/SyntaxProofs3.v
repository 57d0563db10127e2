(** Proofs about the rules of the parser. *)
From Coq Require Import Ascii String Bool Arith ZArith NArith Lia List.
From Verif Require Import GoStrings TextModel TextSpec ReaderModel SyntaxModel SyntaxSpec SyntaxProofs SyntaxProofs2.
Import ListNotations.
Local Open Scope string_scope.

(** * Soundness *)

Definition take (l r : list placed) (g : language) : Prop := exists pre, l = (pre ++ r)%list /\ g pre.
Lemma take_seq l m r a b : take l m a -> take m r b -> take l r (a >> b).
Proof. intros (x & -> & A) (y & -> & B). exists (x ++ y)%list. rewrite app_assoc. split; [reflexivity|]. now exists x, y. Qed.
Lemma take_nil r : take r r nothing. Proof. now exists []. Qed.
Lemma take_last l r a : take l r (a >> nothing) -> take l r a.
Proof. intros (x & -> & y & z & -> & A & ->). exists y. now rewrite app_nil_r. Qed.
Lemma take_only (p : Prop) l r a : p -> take l r a -> take l r (only p a).
Proof. intros P (x & -> & A). now exists x. Qed.
Lemma take_left l r a b : take l r a -> take l r (either a b).
Proof. intros (x & -> & A). exists x. split; [reflexivity|now left]. Qed.
Lemma take_right l r a b : take l r b -> take l r (either a b).
Proof. intros (x & -> & A). exists x. split; [reflexivity|now right]. Qed.
Lemma take_bool (b : bool) l r a : take l r (if b then a else nothing) -> take l r (maybe a).
Proof. destruct b; [apply take_right|apply take_left]. Qed.
Lemma take_sound {A} (p : parser A) f l x r : sound p f -> p l = POk x r -> take l r (f x).
Proof. intros S H. now apply S. Qed.

Definition nonempty (a : language) : Prop := forall l, a l -> l <> [].
Lemma nonempty_tok t : nonempty (tok t). Proof. intros l (n & ->). discriminate. Qed.
Lemma nonempty_left a b : nonempty a -> nonempty (a >> b).
Proof. intros H l (x & y & -> & A & B) E. apply app_eq_nil in E as (-> & _). exact (H _ A eq_refl). Qed.
Lemma nonempty_right a b : nonempty b -> nonempty (a >> b).
Proof. intros H l (x & y & -> & A & B) E. apply app_eq_nil in E as (_ & ->). exact (H _ B eq_refl). Qed.
Lemma take_starting l r a : nonempty a -> take l r a -> take l r (starting (start_line l) a).
Proof.
  intros N (x & -> & A). exists x. split; [reflexivity|]. specialize (N _ A). destruct x as [|(n, t) x]; [easy|]. split; [exact A|]. now exists t, x.
Qed.

Ltac unbind :=
  repeat match goal with
  | H : bind _ _ _ = POk _ _ |- _ =>
      let y := fresh "y" in let m := fresh "m" in let K := fresh "K" in apply bind_ok in H as (y & m & K & H); cbn beta iota in H
  | H : ret _ _ = POk _ _ |- _ => unfold ret in H; injection H as H ?; subst
  end.

Lemma literal_sound : sound p_literal g_literal.
Proof.
  intros [|(n, t) l] x r; cbn; [discriminate|]. destruct t as [s| |s|s|s]; try discriminate.
  - destruct (String.eqb_spec s "true") as [->|]; [|destruct (String.eqb_spec s "false") as [->|]; [|discriminate]]; intros [= <- <-];
    eexists [_]; (split; [reflexivity|]); now exists n.
  - intros [= <- <-]. eexists [_]. split; [reflexivity|]. now exists n.
  - intros [= <- <-]. eexists [_]. split; [reflexivity|]. split; [intros v; apply unquote_iff|]. now exists n.
Qed.
Lemma setting_sound : sound p_annotation_parameter g_setting.
Proof.
  intros l x r H. unfold p_annotation_parameter in H. unbind.
  eapply take_seq; [exact (identifier_sound _ _ _ K)|]. eapply take_seq; [exact (expect_sound _ _ _ _ K0)|]. exact (literal_sound _ _ _ K1).
Qed.
Lemma annotation_sound : sound p_annotation g_annotation.
Proof.
  intros l x r H. unfold p_annotation in H. unbind. pose proof (optional_sound _ _ _ _ K1) as O.
  destruct y1; unbind.
  - eapply take_seq; [exact (expect_sound _ _ _ _ K)|]. eapply take_seq; [exact (identifier_sound _ _ _ K0)|]. apply take_right.
    eapply take_seq; [exact O|]. eapply take_seq; [exact (many_sound _ _ _ setting_sound _ _ _ K2)|]. exact (expect_sound _ _ _ _ K3).
  - eapply take_seq; [exact (expect_sound _ _ _ _ K)|]. eapply take_seq; [exact (identifier_sound _ _ _ K0)|]. apply take_left, take_only; [reflexivity|]. exact O.
Qed.
Lemma annotations_sound : sound p_annotations g_annotations.
Proof. apply many_sound, annotation_sound. Qed.
Lemma reference_sound : sound p_reference g_reference.
Proof.
  intros l x r H. unfold p_reference in H. destruct (next_is is_ident l).
  - unbind. exact (identifier_sound _ _ _ K).
  - apply bind_ok in H as (y & m & K & H). destruct (next_is is_ident m); unbind.
    + eapply take_seq; [exact (expect_sound _ _ _ _ K)|]. eapply take_seq; [exact (identifier_sound _ _ _ K0)|]. eapply take_seq; [exact (expect_sound _ _ _ _ K1)|]. exact (identifier_sound _ _ _ K2).
    + eapply take_seq; [exact (expect_sound _ _ _ _ K)|]. eapply take_seq; [exact (expect_sound _ _ _ _ K0)|]. exact (identifier_sound _ _ _ K1).
Qed.
Lemma block_sound {A} first (p : parser A) f : sound p f -> sound (p_block first p) (fun l => braces (each f l)).
Proof.
  intros S l x r H. unfold p_block in H. unbind.
  eapply take_seq; [exact (expect_sound _ _ _ _ K)|]. eapply take_seq; [exact (many_sound _ _ _ S _ _ _ K0)|]. exact (expect_sound _ _ _ _ K1).
Qed.
Lemma value_sound : sound p_value g_value.
Proof.
  intros l x r H. unfold p_value in H. unbind. apply take_starting; [apply nonempty_right, nonempty_right, nonempty_tok|].
  eapply take_seq; [exact (annotations_sound _ _ _ K)|]. eapply take_seq; [eapply take_bool; exact (optional_sound _ _ _ _ K0)|]. exact (identifier_sound _ _ _ K1).
Qed.
Lemma member_sound : sound p_member g_member.
Proof.
  intros l x r H. unfold p_member in H. unbind. apply take_starting; [apply nonempty_right, nonempty_right, nonempty_left, nonempty_tok|].
  eapply take_seq; [exact (annotations_sound _ _ _ K)|].
  pose proof (optional_sound _ _ _ _ K0) as O. destruct y0.
  - unfold ret in K1. injection K1 as <- ->. eapply take_seq; [apply take_right; exact O|]. eapply take_seq; [exact (identifier_sound _ _ _ K2)|]. exact (reference_sound _ _ _ K3).
  - pose proof (optional_sound _ _ _ _ K1) as O1. destruct O as (a & -> & ->). destruct y1.
    + eapply take_seq; [exact O1|]. eapply take_seq; [exact (identifier_sound _ _ _ K2)|]. exact (reference_sound _ _ _ K3).
    + eapply take_seq; [apply take_left; exact O1|]. eapply take_seq; [exact (identifier_sound _ _ _ K2)|]. exact (reference_sound _ _ _ K3).
Qed.
Lemma direction_sound : sound p_direction g_direction.
Proof.
  intros [|(n, t) l] x r; cbn; [discriminate|]. destruct t as [s| | | |]; try discriminate.
  destruct (String.eqb_spec s "in") as [->|]; [|destruct (String.eqb_spec s "out") as [->|]; [|discriminate]]; intros [= <- <-];
    eexists [_]; (split; [reflexivity|]); now exists n.
Qed.
Lemma param_sound : sound p_param g_param.
Proof.
  intros l x r H. unfold p_param in H. unbind. apply take_starting; [apply nonempty_right, nonempty_right, nonempty_right, nonempty_left, nonempty_tok|].
  eapply take_seq; [exact (annotations_sound _ _ _ K)|]. eapply take_seq; [eapply take_bool; exact (optional_sound _ _ _ _ K0)|].
  eapply take_seq; [exact (many_sound _ _ _ direction_sound _ _ _ K1)|]. eapply take_seq; [exact (identifier_sound _ _ _ K2)|]. eapply take_seq; [exact (reference_sound _ _ _ K3)|].
  pose proof (optional_sound _ _ _ _ K4) as O. destruct y4.
  - apply bind_ok in K5 as (y6 & m6 & K6 & K5). unfold ret in K5. injection K5 as <- <-. eapply take_seq; [exact O|]. exact (literal_sound _ _ _ K6).
  - unfold ret in K5. injection K5 as <- <-. exact O.
Qed.
Lemma locator_member_sound : sound p_locator_member g_locator_member.
Proof.
  intros l x r H. unfold p_locator_member in H. destruct (next_is _ l); unbind;
  (eapply take_seq; [exact (expect_sound _ _ _ _ K)|]; exact (identifier_sound _ _ _ K0)).
Qed.
Lemma resource_member_sound : sound p_resource_member g_resource_member.
Proof.
  intros l x r H. unfold p_resource_member in H. unbind. pose proof (optional_sound _ _ _ _ K0) as O. destruct y0; unbind.
  - apply take_starting; [apply nonempty_right, nonempty_left, nonempty_tok|].
    eapply take_seq; [exact (annotations_sound _ _ _ K)|]. eapply take_seq; [exact O|]. eapply take_seq; [exact (identifier_sound _ _ _ K1)|].
    exact (block_sound _ _ _ locator_member_sound _ _ _ K2).
  - destruct O as (a & -> & ->). apply take_starting; [apply nonempty_right, nonempty_right, nonempty_left, nonempty_tok|].
    eapply take_seq; [exact (annotations_sound _ _ _ K)|]. eapply take_seq; [eapply take_bool; exact (optional_sound _ _ _ _ K1)|]. eapply take_seq; [exact (identifier_sound _ _ _ K2)|].
    exact (block_sound _ _ _ param_sound _ _ _ K3).
Qed.
Lemma code_sound : sound p_error_member g_code.
Proof.
  intros l x r H. unfold p_error_member in H. apply bind_ok in H as (y & m & K & H). eapply take_seq; [exact (expect_sound _ _ _ _ K)|].
  destruct m as [|(n, t) m]; [discriminate|]. destruct t; try discriminate. injection H as <- <-. eexists [_]. split; [reflexivity|]. now exists n.
Qed.
Lemma decl_sound : sound p_decl g_decl.
Proof.
  intros l x r H. unfold p_decl in H. apply bind_ok in H as (a & m & K & H). destruct m as [|(n, t) m]; [discriminate|]. destruct t as [k| | | |]; try discriminate.
  assert (W : forall g, take ((n, TKeyword k) :: m) r (word k >> g) -> take l r (starting (start_line l) (g_annotations a >> word k >> g))).
  { intros g T. apply take_starting; [apply nonempty_right, nonempty_left, nonempty_tok|]. eapply take_seq; [exact (annotations_sound _ _ _ K)|]. exact T. }
  assert (W' : forall g, take m r g -> take ((n, TKeyword k) :: m) r (word k >> g)).
  { intros g T. eapply take_seq; [|exact T]. exists [(n, TKeyword k)]. split; [reflexivity|]. now exists n. }
  cbv zeta in H.
  destruct (String.eqb_spec k "enum") as [->|];
  [|destruct (String.eqb_spec k "class") as [->|];
  [|destruct (String.eqb_spec k "struct") as [->|];
  [|destruct (String.eqb_spec k "error") as [->|];
  [|destruct (String.eqb_spec k "resource") as [->|]; [|discriminate]]]]];
  (apply bind_ok in H as (nm & m1 & K1 & H); apply bind_ok in H as (ms & m2 & K2 & H); unfold ret in H; injection H as <- <-;
   apply W, W'; eapply take_seq; [exact (identifier_sound _ _ _ K1)|]).
  - exact (block_sound _ _ _ value_sound _ _ _ K2).
  - exact (block_sound _ _ _ member_sound _ _ _ K2).
  - exact (block_sound _ _ _ member_sound _ _ _ K2).
  - exact (block_sound _ _ _ code_sound _ _ _ K2).
  - exact (block_sound _ _ _ resource_member_sound _ _ _ K2).
Qed.
Lemma file_sound : sound p_file g_file.
Proof. apply many_sound, decl_sound. Qed.

(** * First tokens *)

Lemma leads_tok {A} (f : A -> language) (first : token -> bool) :
  (forall x pre, f x pre -> exists n t r, pre = (n, t) :: r /\ first t = true) -> leads f first.
Proof. intros H x pre F r. destruct (H x pre F) as (n & t & p & -> & E). exact E. Qed.

Lemma setting_leads : leads g_setting is_ident.
Proof. apply leads_tok. intros x pre H. unfold g_setting in H. open_seq. do 3 eexists. split; reflexivity. Qed.
Lemma annotation_leads : leads g_annotation is_at.
Proof. apply leads_tok. intros x pre H. unfold g_annotation in H. open_seq. do 3 eexists. split; reflexivity. Qed.
Lemma annotations_lead l pre : g_annotations l pre -> pre = [] \/ exists n r, pre = (n, TPunct "@") :: r.
Proof.
  destruct l as [|a l]; cbn; [now left|]. intros H. right. unfold g_annotation in H. open_seq. do 2 eexists. reflexivity.
Qed.

Ltac open_all :=
  repeat (open_seq; match goal with
  | H : starting _ _ _ |- _ => destruct H as (H & ?)
  | H : maybe _ _ |- _ => destruct H as [H|H]
  | H : either _ _ _ |- _ => destruct H as [H|H]
  | H : braces _ _ |- _ => unfold braces in H
  end); open_seq.
Ltac lead_by :=
  match goal with H : g_annotations _ _ |- _ => apply annotations_lead in H as [->|(? & ? & ->)] end; cbn [app]; do 3 eexists; split; reflexivity.

Lemma value_leads : leads g_value first_value.
Proof. apply leads_tok. intros x pre H. unfold g_value in H. open_all; lead_by. Qed.
Lemma member_leads : leads g_member first_member.
Proof. apply leads_tok. intros x pre H. unfold g_member in H. destruct (sm_link x); open_all; lead_by. Qed.
Lemma direction_leads : leads g_direction (is_keyword ["in"; "out"]).
Proof. apply leads_tok. intros [] pre H; cbn in H; open_seq; do 3 eexists; split; reflexivity. Qed.
Lemma directions_lead l pre : each g_direction l pre -> pre = [] \/ exists n s r, pre = (n, TKeyword s) :: r /\ In s ["in"; "out"].
Proof.
  destruct l as [|[] l]; cbn; [now left| |]; intros H; right; open_seq; do 3 eexists; split; [reflexivity|cbn; auto|reflexivity|cbn; auto].
Qed.
Lemma param_leads : leads g_param first_param.
Proof.
  apply leads_tok. intros x pre H. unfold g_param in H. open_all; [|lead_by].
  match goal with H : each g_direction _ _ |- _ => apply directions_lead in H as [->|(? & s & ? & -> & [<-|[<-|[]]])] end; lead_by.
Qed.
Lemma locator_member_leads : leads g_locator_member (is_keyword ["target"; "variable"]).
Proof. apply leads_tok. intros [] pre H; cbn in H; open_seq; do 3 eexists; split; reflexivity. Qed.
Lemma resource_member_leads : leads g_resource_member first_resource_member.
Proof.
  apply leads_tok. intros [m|m] pre H; cbn in H; [unfold g_method in H|unfold g_locator in H]; open_all; lead_by.
Qed.
Lemma code_leads : leads g_code (is_keyword ["code"]).
Proof. apply leads_tok. intros x pre H. unfold g_code in H. open_seq. do 3 eexists; split; reflexivity. Qed.
Lemma decl_leads : leads g_decl first_decl.
Proof. apply leads_tok. intros x pre H. unfold g_decl, g_body in H. destruct (sd_body x); open_all; lead_by. Qed.

(** * Fuel *)

Lemma literal_fuel : no_fuel p_literal.
Proof.
  intros [|(n, t) l]; cbn; [discriminate|]. destruct t; try discriminate. destruct (String.eqb s "true"); [discriminate|]. now destruct (String.eqb s "false").
Qed.
Ltac no_fuel_by :=
  repeat first
  [ apply ret_fuel | apply expect_fuel | apply optional_fuel | apply identifier_fuel | apply literal_fuel
  | apply bind_fuel; [|intros ?] | match goal with |- no_fuel (if ?b then _ else _) => destruct b end ].
Lemma setting_fuel : no_fuel p_annotation_parameter.
Proof. unfold p_annotation_parameter. no_fuel_by. Qed.
Lemma annotation_fuel : no_fuel p_annotation.
Proof.
  unfold p_annotation. no_fuel_by. eapply many_fuel; [apply setting_sound|apply setting_leads|apply setting_fuel].
Qed.
Lemma annotations_fuel : no_fuel p_annotations.
Proof. eapply many_fuel; [apply annotation_sound|apply annotation_leads|apply annotation_fuel]. Qed.
Lemma reference_fuel : no_fuel p_reference.
Proof.
  intros l. unfold p_reference. destruct (next_is is_ident l).
  - apply bind_fuel; [apply identifier_fuel|intros; apply ret_fuel].
  - apply bind_fuel; [apply expect_fuel|]. intros _ m. destruct (next_is is_ident m); revert m;
    match goal with |- forall m, ?p m <> PFuel => change (no_fuel p) end; no_fuel_by.
Qed.
Lemma block_fuel {A} first (p : parser A) f : sound p f -> leads f first -> no_fuel p -> no_fuel (p_block first p).
Proof. intros S L F. unfold p_block. no_fuel_by. now apply (many_fuel first p f). Qed.
Lemma value_fuel : no_fuel p_value.
Proof. intros l. revert l. intros l. unfold p_value. generalize (start_line l). intros n. revert l. match goal with |- forall m, ?p m <> PFuel => change (no_fuel p) end. apply bind_fuel; [apply annotations_fuel|]. intros; no_fuel_by. Qed.
Lemma member_fuel : no_fuel p_member.
Proof.
  intros l. unfold p_member. generalize (start_line l). intros n. revert l. match goal with |- forall m, ?p m <> PFuel => change (no_fuel p) end.
  apply bind_fuel; [apply annotations_fuel|]. intros; no_fuel_by. apply reference_fuel.
Qed.
Lemma direction_fuel : no_fuel p_direction.
Proof. intros [|(n, t) l]; cbn; [discriminate|]. destruct t; try discriminate. destruct (String.eqb s "in"); [discriminate|]. now destruct (String.eqb s "out"). Qed.
Lemma param_fuel : no_fuel p_param.
Proof.
  intros l. unfold p_param. generalize (start_line l). intros n. revert l. match goal with |- forall m, ?p m <> PFuel => change (no_fuel p) end.
  apply bind_fuel; [apply annotations_fuel|]. intros; no_fuel_by.
  - eapply many_fuel; [apply direction_sound|apply direction_leads|apply direction_fuel].
  - apply reference_fuel.
Qed.
Lemma locator_member_fuel : no_fuel p_locator_member.
Proof.
  intros l. unfold p_locator_member. destruct (next_is _ l); revert l; match goal with |- forall m, ?p m <> PFuel => change (no_fuel p) end; no_fuel_by.
Qed.
Lemma resource_member_fuel : no_fuel p_resource_member.
Proof.
  intros l. unfold p_resource_member. generalize (start_line l). intros n. revert l. match goal with |- forall m, ?p m <> PFuel => change (no_fuel p) end.
  apply bind_fuel; [apply annotations_fuel|]. intros; no_fuel_by.
  - eapply many_fuel; [apply locator_member_sound|apply locator_member_leads|apply locator_member_fuel].
  - eapply many_fuel; [apply param_sound|apply param_leads|apply param_fuel].
Qed.
Lemma code_fuel : no_fuel p_error_member.
Proof. intros l. apply bind_fuel; [apply expect_fuel|]. intros _ [|(n, t) m]; [discriminate|]. now destruct t. Qed.
Lemma decl_fuel : no_fuel p_decl.
Proof.
  intros l. unfold p_decl. generalize (start_line l). intros n. revert l. match goal with |- forall m, ?p m <> PFuel => change (no_fuel p) end.
  apply bind_fuel; [apply annotations_fuel|]. intros a l. destruct l as [|(k, t) l]; [discriminate|]. destruct t as [s| | | |]; try discriminate. cbv zeta.
  repeat match goal with |- (if ?b then _ else _) <> _ => destruct b end; try discriminate; revert l;
  match goal with |- forall m, ?p m <> PFuel => change (no_fuel p) end; no_fuel_by.
  - eapply many_fuel; [apply value_sound|apply value_leads|apply value_fuel].
  - eapply many_fuel; [apply member_sound|apply member_leads|apply member_fuel].
  - eapply many_fuel; [apply member_sound|apply member_leads|apply member_fuel].
  - eapply many_fuel; [apply code_sound|apply code_leads|apply code_fuel].
  - eapply many_fuel; [apply resource_member_sound|apply resource_member_leads|apply resource_member_fuel].
Qed.
Lemma file_fuel : no_fuel p_file.
Proof. eapply many_fuel; [apply decl_sound|apply decl_leads|apply decl_fuel]. Qed.
