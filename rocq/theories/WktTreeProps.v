(** Property C18 for every parsed tree.  Vocabulary: WktTreeSpec.v. *)
From Coq Require Import List NArith ZArith Lia Bool.
From Verif Require Import Base Event Claims Geom WktModel WktTreeSpec WktTreeTop.
Import ListNotations.
Local Open Scope list_scope.

(** The callbacks of every tree. *)
Theorem C18_every_tree : forall w, delivers (process_wkt_geom w) (fun multi => tree_events multi 0 w) (Ok tt).
Proof. exact tree_delivers. Qed.
Print Assumptions C18_every_tree.
(** They are the documented callbacks of a geometry exactly if no MULTIPOINT has an EMPTY member. *)
Theorem C18_exact : forall w,
  (exists g, delivers (process_wkt_geom w) (fun multi => gevents multi 0 g) (Ok tt)) <-> empty_member w = false.
Proof. exact tree_exact. Qed.
Print Assumptions C18_exact.
(** In the documented callbacks of every geometry the announced sizes are what is delivered (the geometry
    itself is announced by nothing); with EMPTY members something is missing. *)
Theorem C18_sizes : (forall multi k g, owed (gevents multi k g) = (-1)%Z) /\
  forall multi k w, empty_member w = true -> (-1 < owed (tree_events multi k w))%Z.
Proof. exact (conj (fun multi k g => owed_geom multi g k) (fun multi k w => proj2 (owed_tree multi w k))). Qed.
Print Assumptions C18_sizes.
Example C18_exact_met :
  let w := WCollection [WMultiPoint [None; Some (mkC 1%N 2%N None None)]; WPoint None] in
  empty_member w = true /\ empty_member (WMultiPoint [Some (mkC 1%N 2%N None None)]) = false /\
  tree_events false 0 w =
    [CollectionBegin 2 0; MultiPointBegin 2 0; Xy 1%N 2%N 1; MultiPointEnd 0; EmptyPoint 1; CollectionEnd 0].
Proof. repeat split. Qed.
