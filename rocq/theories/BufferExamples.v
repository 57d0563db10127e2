(** Examples used to show that the hypotheses of the theorems about the buffers can be satisfied. *)
From Coq Require Import Ascii String Bool Arith ZArith NArith Lia Permutation List.
From Verif Require Import GoStrings GoMap GoMapProofs ReporterModel TextModel TextSpec TextProofs TextProofs3 TextExamples
  GoNamesModel BufferModel BufferSpec BufferProofs BufferProofs2 BufferProofs3 BufferProofs4.
Import ListNotations.
Local Open Scope string_scope.

Definition ex_engine : templates := fun tmpl data =>
  match mget "name" data with
  | Some (ValString s) => inl ((newline ++ tmpl ++ s ++ newline)%string, [("fmt", "")])
  | _ => inr (1, "no name")
  end.
Lemma ex_engine_unordered : unordered ex_engine.
Proof. intros tmpl d d' _ _ H. unfold ex_engine. now rewrite H. Qed.

Definition ex_history : list event :=
  [Imported "time" ""; Emitted "type " [ArgString "name"; ArgString "A"]; Reported (info "ok");
   Emitted "var x " [ArgString "name"; ArgReference "b/p" "p" "p.T"; ArgString "q"; ArgReference "b/q" "q" "q.T"]].
Definition ex_go : go_buffer := new_go_buffer "b" "out" "p" "file".
Definition ex_system : system := MkSystem (fun _ => None) (fun _ => None).

Definition ex_go_after : go_buffer * list report := go_events ex_engine ex_history (ex_go, []).
Lemma ex_go_after_value : ex_go_after =
  (MkGoBuffer "b/p" "out/p/file.go" [("time", ""); ("fmt", ""); ("b/q", "q")] (emitted [newline ++ "type A" ++ newline; newline ++ "var x T" ++ newline]), [info "ok"]).
Proof. vm_compute. reflexivity. Qed.

Definition ex_go_text : string := terminated
  ["// Header"; ""; "package p // b/p"; ""; "import ("; """time"""; """fmt"""; "q ""b/q"""; ")"; ""; "type A"; "var x T"].
Lemma ex_go_written : write_go ex_system "// Header" (fun l => l) (fst ex_go_after) (snd ex_go_after) [("other", "x")] =
  (None, [info "ok"; info "Writing file 'out/p/file.go'"], [("other", "x"); ("out/p/file.go", ex_go_text)]).
Proof. vm_compute. reflexivity. Qed.

Definition ex_md : md_buffer := new_md_buffer "out" "file".
Definition ex_md_after : md_buffer * list report := md_events ex_engine ex_history (ex_md, []).
Lemma ex_md_written : write_md ex_system (fst ex_md_after) (snd ex_md_after) [] =
  (None, [info "ok"; info "Writing file 'out/file.md'"], [("out/file.md", terminated [""; "type A"; ""; ""; "var x p.T"; ""])]).
Proof. vm_compute. reflexivity. Qed.

Lemma last_one k v p : last_value k (p ++ [(k, v)]) v.
Proof. exists p, []. split; [reflexivity|auto]. Qed.

Ltac count_texts := repeat match goal with H : all_rendered _ _ ?l _ _ |- _ => inversion H; clear H; subst end.

Lemma ex_rendered : exists texts more, all_rendered ex_engine (shown "b/p") ex_history texts more /\ length texts = 2.
Proof.
  destruct (go_events_spec ex_engine ex_history ex_go [] _ _ (surjective_pairing ex_go_after)) as (_ & _ & _ & H).
  destruct H as (texts & imports & refs & A & C & _).
  { rewrite ex_go_after_value. repeat constructor. discriminate. }
  exists texts, imports. split; [exact A|]. count_texts. reflexivity.
Qed.

Lemma ex_rendered_md : exists texts more, all_rendered ex_engine shown_plain ex_history texts more /\ length texts = 2.
Proof.
  destruct (md_events_spec ex_engine ex_history ex_md [] _ _ (surjective_pairing ex_md_after)) as (_ & _ & H).
  destruct H as (texts & imports & A & C).
  { apply errors_zero. vm_compute. reflexivity. }
  exists texts, imports. split; [exact A|]. count_texts. reflexivity.
Qed.
