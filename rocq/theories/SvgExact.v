(** Proofs: exactly which geometries SvgWriter draws inside paths. *)
From Coq Require Import String Ascii.
From Coq Require Import List NArith ZArith Lia Bool.
From Verif Require Import Base Float Event Geom ProcSpec FeatureSpec JsonLemmas XmlSpec SvgModel SvgSpec SvgTop.
Import ListNotations.
Local Open Scope list_scope.
Local Open Scope string_scope.

Section Exact.
  Variable fmt : f64 -> string.
  Variable invert : bool.
  Hypothesis WF : word_format fmt.

  Lemma word_M : forall s rest rest', no_blank s = true -> s ++ " " ++ rest = "M " ++ rest' -> s = "M".
  Proof.
    intros [|a s] rest rest' H E; cbn in E.
    - discriminate.
    - injection E as -> E. destruct s as [|b s]; [reflexivity|]. cbn in E. injection E as -> E.
      cbn in H. discriminate.
  Qed.
  Lemma position_hidden : forall c rest, ~ inside (Elem "path" [("d", position fmt invert c ++ rest)] []).
  Proof.
    intros c rest [[r E]|E]; injection E as E; unfold position in E; destruct (WF (cx c)) as (A & B & C & _).
    - apply C. rewrite !sapp_assoc in E. exact (word_M _ _ r B E).
    - destruct (fmt (cx c)); [congruence|discriminate].
  Qed.
  Lemma no_chars : forall s, Forall inside (chars s) -> s = "".
  Proof. intros [|a s] H; [reflexivity|]. inversion H as [|? ? [[r E]|E] _]; discriminate. Qed.
  Lemma chars_nil : Forall inside (chars "").
  Proof. constructor. Qed.
  Lemma positions_nil : forall l, positions fmt invert l = "" -> l = [].
  Proof.
    intros [|c l] H; [reflexivity|]. unfold positions in H. cbn [map] in H. rewrite join_cons in H. unfold position in H.
    destruct (WF (cx c)) as (A & _). destruct (fmt (cx c)); [congruence|discriminate].
  Qed.
  Lemma closed_text : forall l, closed fmt invert l <> "".
  Proof. intros l H. discriminate. Qed.
  Lemma arc_inside : forall l, Forall inside (chars (positions fmt invert l)) <-> l = [].
  Proof. intros l. split; [intros H; apply positions_nil, no_chars, H|intros ->; constructor]. Qed.
  Lemma text_inside : forall l, Forall inside (chars (closed fmt invert l)) <-> False.
  Proof. intros l. split; [|tauto]. intros H. exact (closed_text l (no_chars _ H)). Qed.
  Lemma segment_inside : forall s, Forall inside (segment_nodes fmt invert s) <-> segment_void s = true.
  Proof.
    intros [l|l]; cbn [segment_nodes segment_void].
    - rewrite text_inside. split; [tauto|discriminate].
    - rewrite arc_inside. destruct l; split; try reflexivity; discriminate.
  Qed.
  Lemma flat_inside : forall A (f : A -> list node) (b : A -> bool) l,
    (forall a, In a l -> (Forall inside (f a) <-> b a = true)) ->
    (Forall inside (flat_map f l) <-> forallb b l = true).
  Proof.
    induction l as [|a l IH]; intros H; cbn [flat_map forallb].
    - split; [reflexivity|constructor].
    - rewrite Forall_app, andb_true_iff, (H a (or_introl eq_refl)), IH by (intros x Hx; apply H; now right). reflexivity.
  Qed.
  Lemma curve_inside : forall c, Forall inside (curve_nodes fmt invert c) <-> curve_void c = true.
  Proof.
    intros [l|l|l]; cbn [curve_nodes curve_void].
    - rewrite text_inside. split; [tauto|discriminate].
    - rewrite arc_inside. destruct l; split; try reflexivity; discriminate.
    - apply flat_inside. intros s _. apply segment_inside.
  Qed.
  Lemma path_inside : forall r, Forall inside (path (String.concat "" (map (closed fmt invert) r))) <-> true = true.
  Proof.
    intros r. split; [reflexivity|]. intros _. constructor; [|constructor]. destruct r as [|l r]; [now right|left].
    cbn [map]. rewrite join_cons. unfold closed. rewrite !sapp_assoc. eexists. reflexivity.
  Qed.
  Lemma texts_inside : forall r, Forall inside (flat_map (fun l => chars (closed fmt invert l)) r) <-> nothing r = true.
  Proof.
    intros r. rewrite (flat_inside _ _ (fun _ => false)).
    - destruct r; cbn; split; congruence.
    - intros l _. rewrite text_inside. split; [tauto|discriminate].
  Qed.
  Lemma drawing_exact : forall g, Forall inside (drawing fmt invert g) <-> enclosed g = true.
  Proof.
    induction g as [c| |l|l|l|r|l|l IH|l|l|l|l|l|l|l|l] using geom_ind'; cbn [drawing enclosed].
    - split; [reflexivity|]. intros _. constructor; [|constructor]. left. eexists. reflexivity.
    - split; [reflexivity|constructor].
    - rewrite arc_inside. destruct l; split; try reflexivity; discriminate.
    - destruct l as [|c l].
      + split; [reflexivity|]. intros _. constructor; [now right|constructor].
      + split; [|discriminate]. intros H. exfalso. inversion H as [|? ? X _]; subst. unfold positions in X. cbn [map] in X.
        rewrite join_cons in X. exact (position_hidden _ _ X).
    - apply path_inside.
    - apply path_inside.
    - rewrite (flat_inside _ _ (fun _ => true)) by (intros r _; apply path_inside). split; [reflexivity|].
      intros _. apply forallb_forall. reflexivity.
    - apply flat_inside. intros a Ha. rewrite Forall_forall in IH. exact (IH a Ha).
    - rewrite arc_inside. destruct l; split; try reflexivity; discriminate.
    - apply flat_inside. intros s _. apply segment_inside.
    - apply flat_inside. intros s _. apply curve_inside.
    - apply flat_inside. intros s _. apply curve_inside.
    - apply flat_inside. intros [r|c] _; [apply path_inside|]. apply flat_inside. intros s _. apply curve_inside.
    - apply texts_inside.
    - rewrite (flat_inside _ _ (fun _ => true)) by (intros r _; apply path_inside). split; [reflexivity|].
      intros _. apply forallb_forall. reflexivity.
    - apply flat_inside. intros r _. apply texts_inside.
  Qed.
End Exact.
