(** C90 (see /verif/properties.jsonl): boxes of parts, wholes and moved geometries. *)
From Coq Require Import List NArith Bool.
From Verif Require Import Base Float Event Claims Geom ProcModel ProcSpec BoxSpec BoxTop.
Import ListNotations.
Local Open Scope N_scope.

(** What comes in two parts has the box around the boxes of the parts, bit for bit; a part without
    positions adds nothing. *)
Theorem C90_join : forall l1 l2, taken l1 -> taken l2 -> starts_with_numbers l2 ->
  feed bounds_proc (l1 ++ l2) None =
    (around_both (fst (feed bounds_proc l1 None)) (fst (feed bounds_proc l2 None)), Ok tt).
Proof. exact join. Qed.
Print Assumptions C90_join.
Example C90_join_met :
  let l1 := [OEv (Xy 0x4000000000000000 0x7FF8000000000000 0); OEv (Xy 0 1 1)] in
  let l2 := [OEv (Coord 0xC000000000000000 0x3FF0000000000000 (Some 1) None None None 0)] in
  taken l1 /\ taken l2 /\ starts_with_numbers l2 /\
  fst (feed bounds_proc (l1 ++ l2) None) <> fst (feed bounds_proc l1 None) /\
  fst (feed bounds_proc (l1 ++ l2) None) <> fst (feed bounds_proc l2 None).
Proof. cbv zeta. repeat split; vm_compute; try reflexivity; discriminate. Qed.
(** Needed: a second part that begins with a NaN would alone have a box of NaNs. *)
Theorem C90_join_nan_refuted : exists l1 l2, taken l1 /\ taken l2 /\
  fst (feed bounds_proc (l1 ++ l2) None) <>
    around_both (fst (feed bounds_proc l1 None)) (fst (feed bounds_proc l2 None)).
Proof.
  exists [OEv (Xy 0x3FF0000000000000 0 0)], [OEv (Xy 0x7FF8000000000000 0 0); OEv (Xy 0 0 1)].
  repeat split; try reflexivity. vm_compute. discriminate.
Qed.
Print Assumptions C90_join_nan_refuted.
(** Any number of parts. *)
Theorem C90_several : forall ls, Forall taken ls -> Forall starts_with_numbers ls ->
  feed bounds_proc (concat ls) None = (around_all (map (fun l => fst (feed bounds_proc l None)) ls), Ok tt).
Proof. exact several. Qed.
Print Assumptions C90_several.
Example C90_several_met :
  let ls := [[]; [OEv (Xy 0 1 0)]; [OEv (Xy 2 0 0); OEv (Xy 1 3 1)]] in
  Forall taken ls /\ Forall starts_with_numbers ls /\
  fst (feed bounds_proc (concat ls) None) = Some (mkBounds 0 0 2 3).
Proof. cbv zeta. split; [|split]; [repeat constructor|repeat constructor|vm_compute; reflexivity]. Qed.
(** A collection read from any source has the box around the boxes of its members. *)
Theorem C90_collection : forall A (src : dims -> prog A) r gs,
  delivers src (fun multi => gevents multi 0 (GCollection gs)) (Ok r) ->
  Forall (fun g => taken (map OEv (gevents false 0 g))) gs ->
  Forall (fun g => starts_with_numbers (map OEv (gevents false 0 g))) gs ->
  exec bounds_proc (src (p_dims bounds_proc)) None =
    (around_all (map (fun g => fst (run bounds_proc (gevents false 0 g) None)) gs), Ok r).
Proof. exact collection. Qed.
Print Assumptions C90_collection.
Example C90_collection_met :
  let gs := [GPoint (mkC 1 2 None None); GCollection [GLineString [mkC 3 4 (Some 5) None; mkC 0 0 None None]]; GMultiPoint []] in
  Forall (fun g => taken (map OEv (gevents false 0 g))) gs /\
  Forall (fun g => starts_with_numbers (map OEv (gevents false 0 g))) gs /\
  around_all (map (fun g => fst (run bounds_proc (gevents false 0 g) None)) gs) = Some (mkBounds 0 0 3 4).
Proof. cbv zeta. split; [|split]; [repeat constructor|repeat constructor|vm_compute; reflexivity]. Qed.

(** The box of a part lies in the box of the whole. *)
Theorem C90_part : forall l1 l2 b1, taken l1 -> taken l2 -> numbers l2 -> incl (positions l1) (positions l2) ->
  feed bounds_proc l1 None = (Some b1, Ok tt) ->
  exists b2, feed bounds_proc l2 None = (Some b2, Ok tt) /\ inside b1 b2.
Proof. exact part. Qed.
Print Assumptions C90_part.
Example C90_part_met :
  let l1 := [OEv (Xy 1 1 0)] in let l2 := [OEv (LineStringBegin true 2 0); OEv (Xy 0 3 0); OEv (Xy 1 1 1)] in
  taken l1 /\ taken l2 /\ numbers l2 /\ incl (positions l1) (positions l2) /\
  feed bounds_proc l1 None = (Some (mkBounds 1 1 1 1), Ok tt).
Proof.
  cbv zeta. repeat split; try (destruct H as [E|[E|[]]]; injection E as <- <-; reflexivity).
  intros q [<-|[]]. right. now left.
Qed.
(** Neither the order of the positions, nor how often each comes, nor the geometry around them matters. *)
Theorem C90_order : forall l1 l2 b1, taken l1 -> taken l2 -> numbers l1 ->
  (forall q, In q (positions l1) <-> In q (positions l2)) ->
  feed bounds_proc l1 None = (Some b1, Ok tt) ->
  exists b2, feed bounds_proc l2 None = (Some b2, Ok tt) /\ same_box b1 b2.
Proof. exact same_positions. Qed.
Print Assumptions C90_order.
Example C90_order_met :
  let l1 := [OEv (Xy 1 1 0); OEv (Xy 0 5 1)] in
  let l2 := [OEv (LineStringBegin true 3 0); OEv (Xy 0 5 0); OEv (Xy 1 1 1); OEv (Xy 0 5 2)] in
  taken l1 /\ taken l2 /\ numbers l1 /\ (forall q, In q (positions l1) <-> In q (positions l2)) /\
  feed bounds_proc l1 None = (Some (mkBounds 0 1 1 5), Ok tt).
Proof.
  cbv zeta. repeat split; try (destruct H as [E|[E|[]]]; injection E as <- <-; reflexivity); try (vm_compute; reflexivity);
    cbn; intuition.
Qed.
(** The same up to the sign of zeros and no more: of 0 and -0 the first one stays. *)
Theorem C90_order_bits_refuted : exists l1 l2, taken l1 /\ taken l2 /\ numbers l1 /\
  (forall q, In q (positions l1) <-> In q (positions l2)) /\
  fst (feed bounds_proc l1 None) <> fst (feed bounds_proc l2 None).
Proof.
  exists [OEv (Xy 0 0 0); OEv (Xy 0x8000000000000000 0 1)], [OEv (Xy 0x8000000000000000 0 0); OEv (Xy 0 0 1)].
  repeat split; try (destruct H as [E|[E|[]]]; injection E as <- <-; reflexivity); try (cbn; intuition; fail).
  vm_compute. discriminate.
Qed.
Print Assumptions C90_order_bits_refuted.
(** With NaNs the order matters. *)
Theorem C90_order_nan_refuted : exists l1 l2 b1 b2, taken l1 /\ taken l2 /\
  (forall q, In q (positions l1) <-> In q (positions l2)) /\
  feed bounds_proc l1 None = (Some b1, Ok tt) /\ feed bounds_proc l2 None = (Some b2, Ok tt) /\ ~ same_box b1 b2.
Proof.
  exists [OEv (Xy 0x7FF8000000000000 0 0); OEv (Xy 1 0 1)], [OEv (Xy 1 0 0); OEv (Xy 0x7FF8000000000000 0 1)].
  do 2 eexists. split; [reflexivity|]. split; [reflexivity|]. split; [cbn; intuition|].
  split; [vm_compute; reflexivity|]. split; [vm_compute; reflexivity|]. intros [E _]. vm_compute in E. discriminate E.
Qed.
Print Assumptions C90_order_nan_refuted.

(** Pre-processing that keeps the order along each axis moves the box like the positions ... *)
Theorem C90_moved : forall f g l b, taken l -> numbers l ->
  rising f (map fst (positions l)) -> rising g (map snd (positions l)) ->
  feed bounds_proc l None = (Some b, Ok tt) ->
  exists b2, feed (wrapped_xy (fun x y => (f x, g y)) bounds_proc) l None = (Some b2, Ok tt) /\
    same_box b2 (mkBounds (f (min_x b)) (g (min_y b)) (f (max_x b)) (g (max_y b))).
Proof. exact moved_wrapped. Qed.
Print Assumptions C90_moved.
Example C90_moved_met :
  let f x := f64_add x 0x3FF0000000000000 in
  let l := [OEv (Xy 0x4000000000000000 0 0); OEv (Xy 0x3FF0000000000000 0x4000000000000000 1)] in
  taken l /\ numbers l /\ rising f (map fst (positions l)) /\ rising f (map snd (positions l)) /\
  feed (wrapped_xy (fun x y => (f x, f y)) bounds_proc) l None =
    (Some (mkBounds 0x4000000000000000 0x3FF0000000000000 0x4008000000000000 0x4008000000000000), Ok tt).
Proof.
  cbv zeta. split; [reflexivity|]. split; [intros x y [E|[E|[]]]; injection E as <- <-; split; reflexivity|].
  split; [intros x y [<-|[<-|[]]] [<-|[<-|[]]]; vm_compute; congruence|].
  split; [intros x y [<-|[<-|[]]] [<-|[<-|[]]]; vm_compute; congruence|]. vm_compute. reflexivity.
Qed.
(** ... one that turns the first axis around exchanges left and right ... *)
Theorem C90_mirrored : forall f g l b, taken l -> numbers l ->
  falling f (map fst (positions l)) -> rising g (map snd (positions l)) ->
  feed bounds_proc l None = (Some b, Ok tt) ->
  exists b2, feed (wrapped_xy (fun x y => (f x, g y)) bounds_proc) l None = (Some b2, Ok tt) /\
    same_box b2 (mkBounds (f (max_x b)) (g (min_y b)) (f (min_x b)) (g (max_y b))).
Proof. exact mirrored_wrapped. Qed.
Print Assumptions C90_mirrored.
Example C90_mirrored_met :
  let l := [OEv (Xy 0x4000000000000000 0 0); OEv (Xy 0x3FF0000000000000 0x4000000000000000 1)] in
  taken l /\ numbers l /\ falling f64_neg (map fst (positions l)) /\ rising (fun y => y) (map snd (positions l)) /\
  feed (wrapped_xy (fun x y => (f64_neg x, y)) bounds_proc) l None =
    (Some (mkBounds 0xC000000000000000 0 0xBFF0000000000000 0x4000000000000000), Ok tt).
Proof.
  cbv zeta. split; [reflexivity|]. split; [intros x y [E|[E|[]]]; injection E as <- <-; split; reflexivity|].
  split; [intros x y [<-|[<-|[]]] [<-|[<-|[]]]; vm_compute; congruence|].
  split; [intros x y [<-|[<-|[]]] [<-|[<-|[]]]; vm_compute; congruence|]. vm_compute. reflexivity.
Qed.
(** ... and exchanging the axes exchanges those of the box, bit for bit. *)
Theorem C90_swapped : forall l, taken l ->
  feed (wrapped_xy (fun x y => (y, x)) bounds_proc) l None =
    (option_map (fun b => mkBounds (min_y b) (min_x b) (max_y b) (max_x b)) (fst (feed bounds_proc l None)), Ok tt).
Proof. exact swapped_wrapped. Qed.
Print Assumptions C90_swapped.
Example C90_swapped_met : taken [OEv (Xy 1 2 0); OEv (Xy 3 0 1)] /\
  fst (feed bounds_proc [OEv (Xy 1 2 0); OEv (Xy 3 0 1)] None) = Some (mkBounds 1 0 3 2).
Proof. split; vm_compute; reflexivity. Qed.
