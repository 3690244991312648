(** Lemmas behind C60_record: the properties of one dBase record. *)
From Coq Require Import String Ascii.
From Coq Require Import List NArith ZArith Lia Bool.
From Verif Require Import Base Event ProcModel Claims FeatureSpec ShpModel ShpSpec StopSpec ShpFeatures.
Import ListNotations.
Local Open Scope list_scope.

Definition asked (stop : nat -> string -> colval -> bool) (q : nat * string * colval) : bool := stop (fst (fst q)) (snd (fst q)) (snd q).
Lemma record_from : forall d stop r i s,
  exec (asker d stop) (process_properties i r) s =
  (s ++ map prop_obs (until (asked stop) (mapi (fun i q => (i, fst q, snd q)) i (offered r))),
   Ok (existsb (asked stop) (mapi (fun i q => (i, fst q, snd q)) i (offered r)))).
Proof.
  intros d stop r. induction r as [|[n v] r IH]; intros i s; cbn [process_properties offered].
  - cbn. rewrite app_nil_r. reflexivity.
  - rewrite shown_column. destruct (shown v) as [c|]; [|apply IH]. cbn [exec p_prop asker mapi until existsb map fst snd].
    unfold asked at 1 3. cbn [fst snd]. destruct (stop i n c) eqn:E.
    + cbn. reflexivity.
    + rewrite IH. cbn. rewrite <- app_assoc. reflexivity.
Qed.
Lemma record_answer : forall d stop r s,
  exec (asker d stop) (process_properties 0 r) s =
  (s ++ map prop_obs (until (fun q => stop (fst (fst q)) (snd (fst q)) (snd q)) (numbered r)),
   Ok (existsb (fun q => stop (fst (fst q)) (snd (fst q)) (snd q)) (numbered r))).
Proof. intros d stop r s. exact (record_from d stop r 0 s). Qed.
