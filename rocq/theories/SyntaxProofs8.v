(** Proofs about the layout of texts. *)
From Coq Require Import Ascii String Bool Arith ZArith NArith Lia List.
From Verif Require Import GoStrings GoStringsProofs TextModel TextSpec TextProofs ReaderModel SyntaxModel SyntaxSpec SyntaxProofs SyntaxProofs2 SyntaxProofs3 SyntaxProofs4 SyntaxProofs5 SyntaxProofs6 SyntaxProofs7.
Import ListNotations.
Local Open Scope string_scope.

(** * Gaps *)

Lemma blank_sort c : blank_char c -> sort c = 2.
Proof. intros B. now apply sort_blank, blank_char_iff. Qed.
Lemma newlines_cons c x : newlines (String c x) = newlines (String c "") + newlines x.
Proof. exact (newlines_app (String c "") x). Qed.
Lemma space_one c : blank_char c -> matches SpaceRule (String c "").
Proof. intros B. split; [discriminate|]. apply every_cons. split; [assumption|apply every_nil]. Qed.

Lemma lexes_blank c x n ts cs : blank_char c -> lexes (n + newlines (String c "")) x ts cs "" -> lexes n (String c x) ts cs "".
Proof.
  intros B L. destruct x as [|d x]; [|destruct (is_blank_char d) eqn:D].
  - apply (lexes_skip _ _ SpaceRule (String c "") ""); auto. refine (stops_takes SpaceRule (String c "") "" _ I _); [now apply space_one|discriminate].
  - assert (K : forall r a b, takes (String d x) r a b -> r = SpaceRule).
    { intros r a b (E & M & _). destruct (matches_first r a M) as (e & y & -> & T). cbn in E. injection E as <- _. rewrite (sort_blank d D) in T. now destruct r. }
    assert (W : forall a b, takes (String d x) SpaceRule a b -> takes (String c (String d x)) SpaceRule (String c a) b).
    { intros a b T. pose proof (takes_stops _ _ _ _ T) as S. destruct T as (E & M & _). rewrite E. apply (stops_takes SpaceRule (String c a) b); [|assumption|discriminate].
      destruct M as (N & M). split; [discriminate|]. apply every_cons. now split. }
    inversion L as [|? ? r a b t l ? ? T Y L'|? ? a b l ? ? T L'|? ? r a b l ? ? T R L']; subst.
    + rewrite (K _ _ _ T) in Y. inversion Y.
    + now apply K in T.
    + pose proof (K _ _ _ T) as ->. apply (lexes_skip _ _ SpaceRule (String c a) b); auto. rewrite newlines_cons, Nat.add_assoc. exact L'.
  - apply (lexes_skip _ _ SpaceRule (String c "") (String d x)); auto. apply (stops_takes SpaceRule (String c "") (String d x)); [now apply space_one|exact D|discriminate].
Qed.
Lemma lexes_gap g : gap g -> forall n s ts cs, lexes (n + newlines g) s ts cs "" -> exists cs', lexes n (g ++ s) ts cs' "".
Proof.
  induction 1 as [|c g B _ IH|a c g M C _ IH|a g M _ IH]; intros n s ts cs L.
  - exists cs. unfold newlines in L. cbn in L. now rewrite Nat.add_0_r in L.
  - rewrite newlines_cons, Nat.add_assoc in L. destruct (IH _ _ _ _ L) as (cs' & L'). exists cs'. now apply lexes_blank.
  - rewrite newlines_app, newlines_cons, (newlines_line a M), !Nat.add_assoc, Nat.add_0_r in L. destruct (IH _ _ _ _ L) as (cs' & L'). exists ((n, a) :: cs').
    rewrite sapp_assoc. cbn [append]. apply (lexes_comment _ _ a (String c (g ++ s))).
    + apply (stops_takes LineRule); [assumption| |discriminate]. cbn. destruct C as [->| ->]; reflexivity.
    + apply lexes_blank; [|assumption]. unfold blank_char. tauto.
  - rewrite newlines_app, Nat.add_assoc in L. destruct (IH _ _ _ _ L) as (cs' & L'). exists cs'. rewrite sapp_assoc. apply (lexes_skip _ _ BlockRule a (g ++ s)); auto.
    now apply (stops_takes BlockRule).
Qed.
Lemma gap_first g c x : gap g -> g = String c x -> is_name_char c = false /\ is_number_char c = false.
Proof.
  intros [|d g' B _|a d g' M C _|a g' M _] E.
  - discriminate.
  - injection E as <- _. destruct B as [->|[->|[->| ->]]]; split; reflexivity.
  - destruct M as (y & -> & _). cbn in E. injection E as <- _. split; reflexivity.
  - destruct M as (y & -> & _). cbn in E. injection E as <- _. split; reflexivity.
Qed.

(** * Tokens *)

Lemma token_first t a : token_text t a -> exists c x, a = String c x /\ (~ wordy t -> is_name_char c = false /\ is_number_char c = false).
Proof.
  intros [r b u M Y W]. destruct (matches_first r b M) as (c & x & -> & T). exists c, x. split; [reflexivity|]. intros NW.
  destruct Y; cbn in NW; try tauto; cbn [rule_sort] in T.
  - apply sort_3 in T as (A & B & _). unfold is_name_char. now rewrite A, B.
  - apply sort_4 in T as (A & B & _). unfold is_name_char. now rewrite A, B.
Qed.
Lemma laid_first l s : laid_out l s -> forall c x, s = String c x ->
  match l with [] => c = slash | u :: _ => ~ wordy u -> is_name_char c = false /\ is_number_char c = false end.
Proof.
  intros [|a M|t a g l' s' T G A L] c x E.
  - discriminate.
  - destruct M as (y & -> & _). cbn in E. now injection E as <- _.
  - destruct (token_first t a T) as (d & y & -> & F). cbn in E. injection E as <- _. exact F.
Qed.
Lemma wordy_dec t : wordy t \/ ~ wordy t.
Proof. destruct t; cbn; tauto. Qed.
Lemma rest_stops t l g s : wordy t -> gap g -> apart t l g -> laid_out l s -> stops is_name_char (g ++ s) /\ stops is_number_char (g ++ s).
Proof.
  intros WT G A L. destruct g as [|c x].
  - cbn [append]. destruct s as [|c x]; [split; exact I|]. cbn [stops]. pose proof (laid_first l _ L c x eq_refl) as F. destruct l as [|u l].
    + subst c. split; reflexivity.
    + apply F. intros WU. now apply (A WT WU).
  - exact (gap_first _ _ _ G eq_refl).
Qed.

Lemma lexes_laid l s : laid_out l s -> forall n, exists ps cs, lexes n s ps cs "" /\ map snd ps = l.
Proof.
  induction 1 as [|a M|t a g l s T G A L IH]; intros n.
  - exists [], []. split; [constructor|reflexivity].
  - exists [], [(n, a)]. split; [|reflexivity]. apply (lexes_comment _ _ a ""); [|constructor]. pose proof (stops_takes LineRule a "" M I) as S. rewrite sapp_nil_r in S. apply S. discriminate.
  - destruct (IH (n + newlines a + newlines g)) as (ps & cs & X & <-). destruct (lexes_gap g G _ _ _ _ X) as (cs' & X'). exists ((n, t) :: ps), cs'. split; [|reflexivity].
    pose proof (rest_stops t (map snd ps) g s) as RS. destruct T as [r a t M Y W]. apply (lexes_token _ _ r a (g ++ s)); [|assumption|assumption].
    apply stops_takes; [assumption| |assumption]. destruct Y; try exact I; destruct RS as (R0 & R1); try exact I; assumption.
Qed.

(** * Lines don't matter *)

Definition blind (a : language) : Prop := forall l l', a l -> map snd l = map snd l' -> a l'.
Definition relines {A} (f : A -> language) (u : A -> A) : Prop :=
  forall x l l', f x l -> map snd l = map snd l' -> exists x', f x' l' /\ u x' = u x.

Lemma map_app_split (l x y : list placed) : map snd (x ++ y)%list = map snd l -> exists x' y', l = (x' ++ y')%list /\ map snd x = map snd x' /\ map snd y = map snd y'.
Proof.
  revert l. induction x as [|a x IH]; intros l E; cbn in E.
  - now exists [], l.
  - destruct l as [|b l]; [discriminate|]. cbn in E. injection E as E1 E2. destruct (IH l E2) as (x' & y' & -> & X & Y). exists (b :: x'), y'. cbn. now rewrite E1, X.
Qed.
Lemma blind_nothing : blind nothing.
Proof. intros l l' -> E. destruct l'; [reflexivity|discriminate]. Qed.
Lemma blind_tok t : blind (tok t).
Proof. intros l l' (n & ->) E. destruct l' as [|(m, u) [|? ?]]; try discriminate. cbn in E. injection E as <-. now exists m. Qed.
Lemma blind_seq a b : blind a -> blind b -> blind (a >> b).
Proof. intros A B l l' (x & y & -> & X & Y) E. apply map_app_split in E as (x' & y' & -> & EX & EY). exists x', y'. split; [reflexivity|]. split; [now apply (A x)|now apply (B y)]. Qed.
Lemma blind_either a b : blind a -> blind b -> blind (either a b).
Proof. intros A B l l' [X|X] E; [left; now apply (A l)|right; now apply (B l)]. Qed.
Lemma blind_only (p : Prop) a : blind a -> blind (only p a).
Proof. intros A l l' (P & X) E. split; [assumption|now apply (A l)]. Qed.
Lemma blind_each {A} (f : A -> language) xs : (forall x, blind (f x)) -> blind (each f xs).
Proof. intros F. induction xs as [|x xs IH]; cbn; [apply blind_nothing|]. now apply blind_seq. Qed.
Ltac blind_by :=
  repeat first [apply blind_nothing | apply blind_tok | apply blind_seq | apply blind_either | apply blind_only | (apply blind_each; intros ?)].
Lemma blind_literal x : blind (g_literal x).
Proof. destruct x as [[]|s|s u]; cbn; blind_by. Qed.
Lemma blind_setting x : blind (g_setting x).
Proof. unfold g_setting. blind_by. apply blind_literal. Qed.
Lemma blind_annotation x : blind (g_annotation x).
Proof. unfold g_annotation. blind_by. apply blind_literal. Qed.
Lemma blind_annotations x : blind (g_annotations x).
Proof. apply blind_each. apply blind_annotation. Qed.
Lemma blind_reference x : blind (g_reference x).
Proof. destruct x; cbn; blind_by. Qed.
Lemma blind_direction x : blind (g_direction x).
Proof. destruct x; cbn; blind_by. Qed.
Lemma blind_locator_member x : blind (g_locator_member x).
Proof. destruct x; cbn; blind_by. Qed.
Lemma blind_code x : blind (g_code x).
Proof. unfold g_code. blind_by. Qed.

Lemma starting_reline a n l l' : blind a -> starting n a l -> map snd l = map snd l' -> starting (start_line l') a l'.
Proof.
  intros B (A & t & r & ->) E. split; [now apply (B _ _ A)|]. destruct l' as [|(m, u) l']; [discriminate|]. now exists u, l'.
Qed.
Lemma relines_each {A} (f : A -> language) u : relines f u -> relines (each f) (map u).
Proof.
  intros R ys. induction ys as [|x xs IH]; intros l l' H E; cbn in H.
  - exists []. split; [|reflexivity]. now apply (blind_nothing l).
  - destruct H as (a & b & -> & X & Y). apply map_app_split in E as (a' & b' & -> & EX & EY). destruct (R _ _ _ X EX) as (x' & X' & UX). destruct (IH _ _ Y EY) as (xs' & Y' & UY).
    exists (x' :: xs'). split; [now exists a', b'|]. cbn. now rewrite UX, UY.
Qed.
Lemma value_relines : relines g_value unplaced_value.
Proof.
  intros x l l' H E. exists (MkSValue (start_line l') (sv_annots x) (sv_name x)). split; [|reflexivity]. refine (starting_reline _ _ _ _ _ H E).
  cbn [sv_annots sv_name]. apply blind_seq; [apply blind_annotations|]. blind_by.
Qed.
Lemma member_relines : relines g_member unplaced_member.
Proof.
  intros x l l' H E. exists (MkSMember (start_line l') (sm_annots x) (sm_link x) (sm_name x) (sm_ref x)). split; [|reflexivity]. refine (starting_reline _ _ _ _ _ H E).
  cbn [sm_annots sm_link sm_name sm_ref]. apply blind_seq; [apply blind_annotations|]. apply blind_seq; [destruct (sm_link x); blind_by|]. blind_by. apply blind_reference.
Qed.
Lemma param_relines : relines g_param unplaced_param.
Proof.
  intros x l l' H E. exists (MkSParam (start_line l') (sp_annots x) (sp_directions x) (sp_name x) (sp_ref x) (sp_default x)). split; [|reflexivity]. refine (starting_reline _ _ _ _ _ H E).
  cbn [sp_annots sp_directions sp_name sp_ref sp_default]. apply blind_seq; [apply blind_annotations|]. apply blind_seq; [blind_by|].
  apply blind_seq; [apply blind_each, blind_direction|]. apply blind_seq; [blind_by|]. apply blind_seq; [apply blind_reference|]. destruct (sp_default x); blind_by. apply blind_literal.
Qed.
(** Nodes whose members have lines. *)
Lemma reline_block {A} (a b : language) (f : A -> language) u xs l l' : blind a -> blind b -> relines f u ->
  (a >> b >> braces (each f xs)) l -> map snd l = map snd l' -> exists xs', (a >> b >> braces (each f xs')) l' /\ map u xs' = map u xs.
Proof.
  intros A1 B1 R (x & y & -> & X & (z & w & -> & Z & (p & q & -> & P & (v & k & -> & V & K)))) E.
  apply map_app_split in E as (x' & y' & -> & EX & E). apply map_app_split in E as (z' & w' & -> & EZ & E). apply map_app_split in E as (p' & q' & -> & EP & E). apply map_app_split in E as (v' & k' & -> & EV & EK).
  destruct (relines_each f u R _ _ _ V EV) as (xs' & V' & U). exists xs'. split; [|assumption].
  repeat (apply seq_in); try assumption; [now apply (A1 x)|now apply (B1 z)|now apply (blind_tok _ p)|now apply (blind_tok _ k)].
Qed.
Lemma reline_start {A} (g : A -> language) n x l l' : starting n (g x) l -> map snd l = map snd l' -> (exists x', g x' l') -> forall x', g x' l' -> starting (start_line l') (g x') l'.
Proof. intros (_ & t & r & ->) E _ x' G. split; [assumption|]. destruct l' as [|(m, v) l']; [discriminate|]. now exists v, l'. Qed.
Lemma blind_name_after (a : language) s : blind a -> blind (a >> ident s). Proof. intros; blind_by; assumption. Qed.

Lemma resource_member_relines : relines g_resource_member unplaced_resource_member.
Proof.
  intros [m|m] l l' H E; cbn [g_resource_member] in H.
  - pose proof H as (G & t & r & EL). assert (NE : l' <> []) by (intros ->; subst l; discriminate).
    unfold g_method in G. destruct (reline_block (g_annotations (sx_annots m)) (maybe (word "method") >> ident (sx_name m)) g_param unplaced_param (sx_params m) l l') as (ps & G' & U); auto using param_relines.
    + apply blind_annotations.
    + blind_by.
    + destruct G as (x & y & -> & X & (z & w & -> & Z & (p & q & -> & P & Q))). apply seq_in; [assumption|]. rewrite app_assoc. apply seq_in; [|assumption]. now apply seq_in.
    + exists (SMMethod (MkSMethod (start_line l') (sx_annots m) (sx_name m) ps)). split.
      * cbn [g_resource_member]. unfold g_method. cbn [sx_line sx_annots sx_name sx_params]. split.
        -- destruct G' as (x & y & -> & X & (z & w & -> & (z1 & z2 & -> & Z1 & Z2) & W)). apply seq_in; [assumption|]. rewrite <- app_assoc. apply seq_in; [assumption|]. now apply seq_in.
        -- destruct l' as [|(k, v) l']; [easy|]. now exists v, l'.
      * cbn. now rewrite U.
  - exists (SMLocator (MkSLocator (start_line l') (sl_annots m) (sl_name m) (sl_members m))). split; [|reflexivity]. refine (starting_reline _ _ _ _ _ H E).
    cbn [sl_annots sl_name sl_members]. apply blind_seq; [apply blind_annotations|]. unfold braces. blind_by. apply blind_locator_member.
Qed.
Lemma id_relines {A} (f : A -> language) : (forall x, blind (f x)) -> relines f (fun x => x).
Proof. intros B x l l' H E. exists x. split; [now apply (B x l)|reflexivity]. Qed.
Lemma decl_relines : relines g_decl unplaced.
Proof.
  intros [n a s b] l l' H E. pose proof H as (G & t & r & EL). assert (NE : l' <> []) by (intros ->; subst l; discriminate). cbn [sd_line sd_annots sd_name sd_body] in *.
  assert (T : forall b', (g_annotations a >> g_body s b') l' -> unplaced_body b' = unplaced_body b -> exists x', g_decl x' l' /\ unplaced x' = unplaced (MkSDecl n a s b)).
  { intros b' G' U. exists (MkSDecl (start_line l') a s b'). split; [|unfold unplaced; cbn; now rewrite U]. split; [exact G'|]. destruct l' as [|(k, v) l']; [easy|]. now exists v, l'. }
  assert (W : forall A (f : A -> language) u k (mk : list A -> sbody) xs, (forall ys, g_body s (mk ys) = (word k >> ident s >> braces (each f ys))) -> relines f u ->
     (forall ys, map u ys = map u xs -> unplaced_body (mk ys) = unplaced_body (mk xs)) -> b = mk xs -> exists x', g_decl x' l' /\ unplaced x' = unplaced (MkSDecl n a s b)).
  { intros A f u k mk xs GB R UB ->. rewrite GB in G. destruct (reline_block (g_annotations a >> word k) (ident s) f u xs l l') as (ys & G' & U); auto.
    - apply blind_seq; [apply blind_annotations|apply blind_tok].
    - apply blind_tok.
    - destruct G as (x & y & -> & X & (z & w & -> & Z & W)). rewrite app_assoc. apply seq_in; [|assumption]. now apply seq_in.
    - apply (T (mk ys)); [|now apply UB]. rewrite GB. destruct G' as (x & y & -> & (x1 & x2 & -> & X1 & X2) & Y). rewrite <- app_assoc. apply seq_in; [assumption|]. now apply seq_in. }
  destruct b as [xs|xs|xs|xs|xs].
  - apply (W _ g_value unplaced_value "enum" BEnum xs); auto using value_relines. intros ys U. cbn. now rewrite U.
  - apply (W _ g_member unplaced_member "class" BClass xs); auto using member_relines. intros ys U. cbn. now rewrite U.
  - apply (W _ g_member unplaced_member "struct" BStruct xs); auto using member_relines. intros ys U. cbn. now rewrite U.
  - apply (W _ g_code (fun x => x) "error" BError xs); auto using id_relines, blind_code. intros ys U. rewrite !map_id in U. now rewrite U.
  - apply (W _ g_resource_member unplaced_resource_member "resource" BResource xs); auto using resource_member_relines. intros ys U. cbn. now rewrite U.
Qed.
Lemma file_relines : relines g_file (map unplaced).
Proof. apply relines_each, decl_relines. Qed.
