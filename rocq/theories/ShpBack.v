(** Null records of negative size (helper lemmas for C41). *)
From Coq Require Import String Ascii.
From Coq Require Import List NArith ZArith Lia Bool.
From Coq Require Import Init.Byte.
From Verif Require Import Base BaseLemmas Event EventLemmas Claims WkbModel WkbRead ShpModel ShpTop.
Import ListNotations.
Local Open Scope N_scope.
Local Open Scope list_scope.

(** number 1, size -4 words, type Null *)
Definition back : list byte := [x00; x00; x00; x01; xff; xff; xff; xfc; x00; x00; x00; x00].
Lemma back_read : forall ck d rest, read_shape ck d (back ++ rest) = Done (Ok ((1%Z, (-4)%Z), rest)).
Proof. intros [|] d rest; reflexivity. Qed.
Lemma back_stays : forall pos, pos + 8 < 2 ^ 64 -> advance false pos (-4) = Ok pos.
Proof.
  intros pos H. unfold advance. rewrite uadd_ok by lia. cbn [res_bind].
  change (umul false (as_usize (-4)) 2) with (@Ok N (2 ^ 64 - 8)). cbn [res_bind]. unfold uadd, usize_limit.
  destruct (N.ltb_spec (pos + 8 + (2 ^ 64 - 8)) (2 ^ 64)) as [L|L]; [lia|]. f_equal.
  replace (pos + 8 + (2 ^ 64 - 8)) with (pos + 1 * 2 ^ 64) by lia. rewrite N.mod_add by discriminate. apply N.mod_small. lia.
Qed.
Lemma back_debug : forall pos, pos + 8 < 2 ^ 64 -> advance true pos (-4) = Err EPanic.
Proof. intros pos H. unfold advance. rewrite uadd_ok by lia. reflexivity. Qed.

Lemma back_many : forall leftover S (p : proc S) n rest pos len s, pos < len -> pos + 8 < 2 ^ 64 ->
  shapes false leftover p n (mkIter (concat (repeat back n) ++ rest) pos len) s =
  (mkIter rest pos len, s, repeat (Some (Ok tt)) n).
Proof.
  intros leftover S p n rest pos len s L B. induction n as [|n IH]; [reflexivity|].
  cbn [repeat concat shapes]. rewrite <- app_assoc. unfold shape_next. cbn [it_length it_pos it_source].
  destruct (N.leb_spec len pos) as [K|K]; [lia|]. rewrite back_read. cbn [exec snd]. rewrite (back_stays pos B). now rewrite IH.
Qed.
Lemma back_first : forall leftover S (p : proc S) rest pos len s, pos < len -> pos + 8 < 2 ^ 64 ->
  shape_next true leftover p (mkIter (back ++ rest) pos len) s = (mkIter rest pos len, s, Some (Err EPanic)).
Proof.
  intros leftover S p rest pos len s L B. unfold shape_next. cbn [it_length it_pos it_source].
  destruct (N.leb_spec len pos) as [K|K]; [lia|]. rewrite back_read. cbn [exec snd]. now rewrite (back_debug pos B).
Qed.
Lemma back_iter : forall ck h source, (50 < h_length h < 2 ^ 30)%Z ->
  exists it, iter_geometries ck h source = Ok it /\ it = mkIter source 100 (Z.to_N (h_length h * 2)).
Proof.
  intros ck h source H. unfold iter_geometries, i32_op, fits_i32.
  replace (_ && _)%bool with true by (symmetry; apply andb_true_intro; split; [apply Z.leb_le|apply Z.ltb_lt]; lia).
  eexists. split; [reflexivity|]. f_equal. unfold as_usize. now rewrite Z.mod_small by lia.
Qed.
Lemma beyond : forall leftover S (p : proc S) h n rest s, (50 < h_length h < 2 ^ 30)%Z ->
  exists it it', iter_geometries false h (concat (repeat back n) ++ rest) = Ok it /\
    shapes false leftover p n it s = (it', s, repeat (Some (Ok tt)) n) /\ it_source it' = rest.
Proof.
  intros leftover S p h n rest s H. destruct (back_iter false h (concat (repeat back n) ++ rest) H) as (it & E & ->).
  do 2 eexists. split; [exact E|]. rewrite back_many by lia. split; reflexivity.
Qed.
Lemma beyond_debug : forall leftover S (p : proc S) h rest s, (50 < h_length h < 2 ^ 30)%Z ->
  exists it, iter_geometries true h (back ++ rest) = Ok it /\ snd (shape_next true leftover p it s) = Some (Err EPanic).
Proof.
  intros leftover S p h rest s H. destruct (back_iter true h (back ++ rest) H) as (it & E & ->).
  eexists. split; [exact E|]. now rewrite back_first by lia.
Qed.
