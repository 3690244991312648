(** The Display of DecSpec.v meets the hypotheses of the WKT theorems (helper lemmas). *)
From Coq Require Import String Ascii.
From Coq Require Import List NArith ZArith Lia Bool.
From Verif Require Import Base Event WkbSpec WktSpec WktExactSpec DecSpec DecMore.
Local Open Scope N_scope.
Local Open Scope string_scope.

Lemma no_delim_space : forall s, no_delim s = true -> no_space s = true.
Proof.
  induction s as [|a s IH]; intros H; [reflexivity|]. cbn in *. apply andb_true_iff in H.
  destruct H as [H1 H2]. rewrite IH by exact H2. rewrite andb_true_r. unfold delim in H1.
  apply negb_true_iff in H1. rewrite !orb_false_iff in H1. now destruct H1 as [[[-> _] _] _].
Qed.

Lemma display_spaceless : forall fmt, displays 52 11 fmt -> spaceless fmt /\ one_nan fmt.
Proof.
  intros fmt D. split.
  - intros x Hx. apply no_delim_space. exact (proj1 (displays_wkt fmt D x Hx)).
  - intros x Hx Nx. assert (Q : f64_ok qnan) by reflexivity.
    assert (K : forall y, f64_ok y -> f64_is_nan y = true -> fmt y = "NaN").
    { intros y Hy Ny. pose proof (nan_mod y Hy) as NM. pose proof (D y Hy) as H.
      destruct (N.compare_spec (y mod sign_bit 52 11) (infinite 52 11)) as [C|C|C]; [| |exact H];
        pose proof (proj1 NM Ny); lia. }
    rewrite (K x Hx Nx), (K qnan Q eq_refl). reflexivity.
Qed.
