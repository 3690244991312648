(** C60 for one record.  Read with: StopSpec.v ([asker], [until], [numbered]) and FeatureSpec.v ([prop_obs]). *)
From Coq Require Import String Ascii.
From Coq Require Import List NArith ZArith Lia Bool.
From Verif Require Import Base Event ProcModel Claims FeatureSpec ShpModel ShpSpec StopSpec RecordTop.
Import ListNotations.
Local Open Scope list_scope.

(** The properties of a dBase record are delivered up to the first stop request, and the answer tells whether there
    was one. *)
Theorem C60_record : forall d stop r s,
  exec (asker d stop) (process_properties 0 r) s =
  (s ++ map prop_obs (until (fun q => stop (fst (fst q)) (snd (fst q)) (snd q)) (numbered r)),
   Ok (existsb (fun q => stop (fst (fst q)) (snd (fst q)) (snd q)) (numbered r))).
Proof. exact record_answer. Qed.
Print Assumptions C60_record.
