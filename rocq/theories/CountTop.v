(** Proofs about the counters of the writers (helper lemmas for C91). *)
From Coq Require Import String Ascii.
From Coq Require Import List NArith ZArith Lia Bool.
From Coq Require Import Init.Byte.
From Verif Require Import Base Float Event Claims WkbModel GeoJsonModel CountModel DrivenSpec CountSpec.
Import ListNotations.
Local Open Scope N_scope.

Lemma tally_cons : forall f o l, tally f (o :: l) =
  (match o with OEv e => if f e then 1 else 0 | OProp _ _ _ => 0 end) + tally f l.
Proof. intros f [e|i n v] l; unfold tally; cbn [filter]; [destruct (f e)|]; cbn [length]; lia. Qed.
Lemma up_some : forall ck w n, n + 1 < 2 ^ w -> up ck w n = Some (n + 1).
Proof. intros ck w n H. unfold up. apply N.ltb_lt in H. rewrite H. reflexivity. Qed.
Lemma down_some : forall ck w n, 0 < n -> down ck w n = Some (n - 1).
Proof. intros ck w n H. unfold down. apply N.ltb_lt in H. rewrite H. reflexivity. Qed.
Lemma down_zero : forall ck w, down ck w 0 = if ck then None else Some (2 ^ w - 1).
Proof. reflexivity. Qed.
Lemma pow_pos : forall w, 0 < 2 ^ w.
Proof. intros w. apply N.neq_0_lt_0, N.pow_nonzero. discriminate. Qed.

(** ** WKB: a step asks of the counter only if it is zero *)
Section Wkb.
  Variable c : wcfg.
  Definition nest (n : nat) (s : wst) : wst := mkWst (w_first s) (w_state s) n (w_out s).
  Definition put_nest (n : nat) (r : wst * res unit) : wst * res unit := (nest n (fst r), snd r).
  Lemma ewkb_nest : forall n s t, write_ewkb_header c (nest n s) t = nest n (write_ewkb_header c s t).
  Proof. intros n [f g k o] t. unfold write_ewkb_header. cbn [w_first nest out_app]. destruct f, (w_srid c); reflexivity. Qed.
  Lemma spatialite_nest : forall n s t, write_spatialite_header c (nest n s) t = nest n (write_spatialite_header c s t).
  Proof. intros n [f g k o] t. unfold write_spatialite_header. cbn [w_first nest]. destruct f; reflexivity. Qed.
  Lemma mysql_nest : forall n s, write_mysql_header c (nest n s) = put_nest n (write_mysql_header c s).
  Proof. intros n s. unfold write_mysql_header. destruct (w_srid c) as [v|]; [destruct (v <? 0)%Z|]; reflexivity. Qed.
  Lemma header_nest : forall n s t, write_header c (nest n s) t = put_nest n (write_header c s t).
  Proof.
    intros n s t. unfold write_header. destruct (w_dialect c).
    - reflexivity.
    - rewrite ewkb_nest. reflexivity.
    - cbn [w_first nest]. destruct (w_first s); reflexivity.
    - cbn [w_first nest]. destruct (w_first s); [|reflexivity]. rewrite mysql_nest.
      destruct (write_mysql_header c s) as [s' [u|x]]; reflexivity.
    - rewrite spatialite_nest. reflexivity.
  Qed.
  Lemma size_nest : forall n s t k, header_size c (nest n s) t k = put_nest n (header_size c s t k).
  Proof. intros n s t k. unfold header_size. rewrite header_nest. destruct (write_header c s t) as [s' [u|x]]; reflexivity. Qed.
  Lemma state_nest : forall n g r, then_state g (put_nest n r) = put_nest n (then_state g r).
  Proof. intros n g [s [u|x]]; reflexivity. Qed.
  Lemma coord_nest : forall n s x y z m, write_coordinate c (nest n s) x y z m = put_nest n (write_coordinate c s x y z m).
  Proof.
    intros n s x y z m. unfold write_coordinate. cbn [w_state nest].
    destruct (w_state s); try (destruct (dz (w_dims c)), (dm (w_dims c)); reflexivity).
    rewrite header_nest. destruct (write_header c s TPoint) as [s' [u|e]];
      destruct (dz (w_dims c)), (dm (w_dims c)); reflexivity.
  Qed.
  Lemma footer_nest : forall n k s, Nat.eqb n 0 = Nat.eqb k 0 ->
    write_footer c (nest n s) = put_nest n (write_footer c (nest k s)).
  Proof.
    intros n k s Z. unfold write_footer. cbn [w_nest nest]. rewrite Z. destruct (w_dialect c); try reflexivity.
    destruct (Nat.eqb k 0); reflexivity.
  Qed.
  Lemma twice : forall n k s, nest n (nest k s) = nest n s.
  Proof. reflexivity. Qed.
  Lemma put_twice : forall n k r, put_nest n (put_nest k r) = put_nest n r.
  Proof. reflexivity. Qed.
  Lemma other_step : forall e f g n k o, begins_multi e = false -> ends_multi e = false -> Nat.eqb n 0 = Nat.eqb k 0 ->
    wkb_step c (mkWst f g n o) e = put_nest n (wkb_step c (mkWst f g k o) e).
  Proof.
    intros e f g n k o B E Z.
    change (mkWst f g n o) with (nest n (mkWst f g k o)). change (mkWst f g k o) with (nest k (mkWst f g k o)) at 2.
    set (s := mkWst f g k o).
    assert (F : forall s, write_footer c (nest n s) = put_nest n (write_footer c (nest k s))) by (intros; now apply footer_nest).
    assert (H : forall t, write_header c (nest n s) t = put_nest n (write_header c (nest k s) t))
      by (intros; rewrite !header_nest; reflexivity).
    assert (H2 : forall t i, header_size c (nest n s) t i = put_nest n (header_size c (nest k s) t i))
      by (intros; rewrite !size_nest; reflexivity).
    assert (H3 : forall h t i, then_state h (header_size c (nest n s) t i) = put_nest n (then_state h (header_size c (nest k s) t i)))
      by (intros; rewrite !size_nest, !state_nest; reflexivity).
    assert (H4 : forall x y z m, write_coordinate c (nest n s) x y z m = put_nest n (write_coordinate c (nest k s) x y z m))
      by (intros; rewrite !coord_nest; reflexivity).
    assert (F2 : forall h, write_footer c (set_state (nest n s) h) = put_nest n (write_footer c (set_state (nest k s) h)))
      by (intros h; apply (F (set_state s h))).
    destruct e; try discriminate B; try discriminate E; cbn [wkb_step];
      first [apply F | apply H | apply H2 | apply H3 | apply H4 | apply F2 | reflexivity
            | change (w_state (nest n s)) with g; change (w_state (nest k s)) with g; destruct g; first [apply H2|reflexivity]].
  Qed.
  Lemma open_step : forall e f g n k o, begins_multi e = true ->
    wkb_step c (mkWst f g n o) e = put_nest (Datatypes.S n) (wkb_step c (mkWst f g k o) e).
  Proof.
    intros e f g n k o B. set (s := mkWst f g k o).
    assert (H2 : forall t i, header_size c (nest_incr (mkWst f g n o)) t i = put_nest (Datatypes.S n) (header_size c (nest_incr s) t i)).
    { intros t i. change (nest_incr (mkWst f g n o)) with (nest (Datatypes.S n) (nest_incr s)). apply size_nest. }
    destruct e; try discriminate B; cbn [wkb_step]; rewrite H2, ?state_nest; reflexivity.
  Qed.
  Lemma close_step : forall e f g n k o, ends_multi e = true -> Nat.eqb n 0 = Nat.eqb k 0 ->
    wkb_step c (mkWst f g (Datatypes.S n) o) e = put_nest n (wkb_step c (mkWst f g (Datatypes.S k) o) e).
  Proof.
    intros e f g n k o E Z. destruct e; try discriminate E; cbn [wkb_step]; unfold nest_decr, set_state; cbn [w_nest w_first w_state w_out];
      match goal with |- write_footer c (mkWst ?a ?b n ?d) = _ => exact (footer_nest n k (mkWst a b n d) Z) end.
  Qed.
  (** the only panic is that of the counter *)
  Lemma header_quiet : forall s t, snd (write_header c s t) <> Err EPanic.
  Proof.
    intros s t. unfold write_header. destruct (w_dialect c); try discriminate. destruct (w_first s); [|discriminate].
    unfold write_mysql_header. destruct (w_srid c) as [v|]; [destruct (v <? 0)%Z|]; discriminate.
  Qed.
  Lemma footer_quiet : forall s, snd (write_footer c s) <> Err EPanic.
  Proof. intros s. unfold write_footer. destruct (w_dialect c); try discriminate. destruct (Nat.eqb (w_nest s) 0); discriminate. Qed.
  Lemma size_quiet : forall s t k, snd (header_size c s t k) <> Err EPanic.
  Proof.
    intros s t k. unfold header_size. pose proof (header_quiet s t) as H. destruct (write_header c s t) as [s' [u|x]]; [discriminate|exact H].
  Qed.
  Lemma coord_quiet : forall s x y z m, snd (write_coordinate c s x y z m) <> Err EPanic.
  Proof.
    intros s x y z m. unfold write_coordinate. destruct (w_state s); try discriminate.
    pose proof (header_quiet s TPoint) as H. destruct (write_header c s TPoint) as [s' [u|e]]; [discriminate|exact H].
  Qed.
  Lemma no_panic : forall e s, (ends_multi e = true -> w_nest s <> O) -> snd (wkb_step c s e) <> Err EPanic.
  Proof.
    intros e s H.
    assert (T : forall g s t k, snd (then_state g (header_size c s t k)) <> Err EPanic).
    { intros g s0 t k. pose proof (size_quiet s0 t k) as Q. destruct (header_size c s0 t k) as [s' [u|x]]; [discriminate|exact Q]. }
    assert (D : forall k, (forall s, snd (k s) <> Err EPanic) -> w_nest s <> O -> snd (nest_decr s k) <> Err EPanic).
    { intros k Q Z. unfold nest_decr. destruct (w_nest s); [easy|apply Q]. }
    destruct e; cbn [ends_multi] in H; cbn [wkb_step];
      first [apply header_quiet | apply footer_quiet | apply size_quiet | apply coord_quiet | apply T | discriminate
            | apply D; [intros; apply footer_quiet|apply H; reflexivity]
            | destruct (w_state s); first [apply size_quiet|discriminate]].
  Qed.

  (** the state of the model that counts without bound *)
  Definition plain (q : mstate) : wst :=
    mkWst (w_first (snd q)) (w_state (snd q)) (N.to_nat (fst q)) (w_out (snd q)).
  Lemma wkb_step_eq : forall ck l s e, w_nest s = O ->
    (begins_multi e = true -> l + 1 < 2 ^ 32) ->
    (ck = true \/ snd (wkb_step c (plain (l, s)) e) <> Err EPanic) ->
    let q := fst (wkb_step_m ck c (l, s) e) in
    wkb_step c (plain (l, s)) e = (plain q, snd (wkb_step_m ck c (l, s) e)) /\ w_nest (snd q) = O /\
    fst q <= l + (if begins_multi e then 1 else 0).
  Proof.
    intros ck l [f g n o] e Z B K. cbn [w_nest] in Z. subst n. cbv zeta. unfold plain. cbn [fst snd w_first w_state w_out].
    destruct (begins_multi e) eqn:EB; [|destruct (ends_multi e) eqn:EE].
    - assert (M : wkb_step_m ck c (l, mkWst f g 0 o) e = and_level (l + 1) (wkb_step c (mkWst f g 0 o) e)).
      { destruct e; try discriminate EB; cbn [wkb_step_m]; rewrite up_some by (apply B; reflexivity); reflexivity. }
      rewrite M, (open_step e f g (N.to_nat l) 0 o EB). unfold and_level, put_nest, nest.
      destruct (wkb_step c (mkWst f g 0 o) e) as [s r]. cbn [fst snd at_level w_first w_state w_out w_nest].
      change (seen 0) with 0%nat. cbn iota. split; [|split; [reflexivity|lia]].
      replace (N.to_nat (l + 1)) with (Datatypes.S (N.to_nat l)) by lia. reflexivity.
    - destruct (N.eq_dec l 0) as [->|NZ].
      + assert (P : wkb_step c (mkWst f g (N.to_nat 0) o) e = (mkWst f g 0 o, Err EPanic)).
        { destruct e; try discriminate EE; reflexivity. }
        destruct K as [-> |K]; [|unfold plain in K; cbn [fst snd w_first w_state w_out] in K; rewrite P in K; exfalso; now apply K].
        rewrite P. assert (M : wkb_step_m true c (0, mkWst f g 0 o) e = ((0, mkWst f g 0 o), Err EPanic)).
        { destruct e; try discriminate EE; cbn [wkb_step_m]; rewrite down_zero; reflexivity. }
        rewrite M. cbn [fst snd w_first w_state w_out w_nest]. repeat split. lia.
      + assert (M : wkb_step_m ck c (l, mkWst f g 0 o) e =
          and_level (l - 1) (wkb_step c (mkWst f g (Datatypes.S (seen (l - 1))) o) e)).
        { destruct e; try discriminate EE; cbn [wkb_step_m]; rewrite down_some by lia; reflexivity. }
        rewrite M. replace (N.to_nat l) with (Datatypes.S (N.to_nat (l - 1))) by lia.
        rewrite (close_step e f g (N.to_nat (l - 1)) (seen (l - 1)) o EE).
        2:{ unfold seen. destruct (N.eqb_spec (l - 1) 0) as [Q|Q]; [rewrite Q; reflexivity|].
            destruct (Nat.eqb_spec (N.to_nat (l - 1)) 0); [lia|reflexivity]. }
        clear K. unfold and_level, put_nest, nest. destruct (wkb_step c _ e) as [s r]. cbn [fst snd at_level w_first w_state w_out w_nest].
        change (seen 0) with 0%nat. cbn iota. repeat split. lia.
    - assert (M : wkb_step_m ck c (l, mkWst f g 0 o) e = and_level l (wkb_step c (mkWst f g (seen l) o) e)).
      { destruct e; try discriminate EB; try discriminate EE; reflexivity. }
      rewrite M, (other_step e f g (N.to_nat l) (seen l) o EB EE).
      2:{ unfold seen. destruct (N.eqb_spec l 0) as [Q|Q]; [rewrite Q; reflexivity|].
          destruct (Nat.eqb_spec (N.to_nat l) 0); [lia|reflexivity]. }
      clear K. unfold and_level, put_nest, nest. destruct (wkb_step c _ e) as [s r]. cbn [fst snd at_level w_first w_state w_out w_nest].
      change (seen 0) with 0%nat. cbn iota. repeat split. lia.
  Qed.
  Lemma wkb_feed_eq : forall ck l n s, w_nest s = O -> n + tally begins_multi l < 2 ^ 32 ->
    (ck = true \/ snd (feed (wkb_writer c) l (plain (n, s))) <> Err EPanic) ->
    feed (wkb_writer c) l (plain (n, s)) =
      (plain (fst (feed (wkb_writer_m ck c) l (n, s))), snd (feed (wkb_writer_m ck c) l (n, s))).
  Proof.
    intros ck. induction l as [|[e|i m v] l IH]; intros n s Z B K; cbn [feed]; [reflexivity| |].
    - rewrite tally_cons in B. cbn [feed wkb_writer p_step] in K. cbn [wkb_writer wkb_writer_m p_step].
      assert (K' : ck = true \/ snd (wkb_step c (plain (n, s)) e) <> Err EPanic).
      { destruct K as [K|K]; [now left|right]. intros Q. apply K.
        destruct (wkb_step c (plain (n, s)) e) as [s' [u|x]]; [discriminate Q|exact Q]. }
      destruct (wkb_step_eq ck n s e Z) as (E & Z' & L); [intros Q; rewrite Q in B; lia|exact K'|].
      cbv zeta in E, Z', L. destruct (wkb_step_m ck c (n, s) e) as [[n' s'] r]. cbn [fst snd] in E, Z', L.
      rewrite E in K |- *. destruct r as [u|x]; [|reflexivity].
      apply IH; [exact Z'|destruct (begins_multi e); lia|exact K].
    - rewrite tally_cons in B. cbn [wkb_writer wkb_writer_m p_prop]. cbn [feed wkb_writer p_prop] in K. unfold default_prop in K |- *.
      apply IH; [exact Z|lia|exact K].
  Qed.
  Lemma wkb_same : forall ck l, tally begins_multi l < 2 ^ 32 ->
    (ck = true \/ snd (feed (wkb_writer c) l wst_init) <> Err EPanic) ->
    w_out (snd (fst (feed (wkb_writer_m ck c) l (0, wst_init)))) = w_out (fst (feed (wkb_writer c) l wst_init)) /\
    snd (feed (wkb_writer_m ck c) l (0, wst_init)) = snd (feed (wkb_writer c) l wst_init).
  Proof.
    intros ck l B K. pose proof (wkb_feed_eq ck l 0 wst_init eq_refl) as E.
    change (plain (0, wst_init)) with wst_init in E. rewrite E by (exact K || lia). split; reflexivity.
  Qed.

  (** without checks *)
  Lemma wkb_unchecked_step : forall l s e,
    snd (wkb_step_m false c (l, s) e) <> Err EPanic /\
    (l < 2 ^ 32 -> Z.of_N (fst (fst (wkb_step_m false c (l, s) e))) =
      ((Z.of_N l + (if begins_multi e then 1 else 0) - (if ends_multi e then 1 else 0)) mod 2 ^ 32)%Z).
  Proof.
    intros l s e.
    assert (U : forall n, n < 2 ^ 32 -> exists k, up false 32 n = Some k /\ Z.of_N k = ((Z.of_N n + 1) mod 2 ^ 32)%Z).
    { intros n H. unfold up. destruct (N.ltb_spec (n + 1) (2 ^ 32)) as [L|L]; eexists; (split; [reflexivity|]).
      - rewrite Z.mod_small; lia.
      - replace (Z.of_N n + 1)%Z with (2 ^ 32)%Z by lia. reflexivity. }
    assert (D : forall n, n < 2 ^ 32 -> exists k, down false 32 n = Some k /\ Z.of_N k = ((Z.of_N n - 1) mod 2 ^ 32)%Z).
    { intros n H. unfold down. destruct (N.ltb_spec 0 n) as [L|L]; eexists; (split; [reflexivity|]).
      - rewrite Z.mod_small; lia.
      - replace n with 0 by lia. reflexivity. }
    assert (UP : forall n, exists k, up false 32 n = Some k) by (intros n; unfold up; destruct (n + 1 <? 2 ^ 32); eauto).
    assert (DN : forall n, exists k, down false 32 n = Some k) by (intros n; unfold down; destruct (0 <? n); eauto).
    split.
    - destruct e; cbn [wkb_step_m];
        try (destruct (UP l) as [k Hk]; rewrite Hk); try (destruct (DN l) as [k Hk]; rewrite Hk);
        unfold and_level;
        match goal with |- context [wkb_step c ?t ?e] =>
          pose proof (no_panic e t) as P; destruct (wkb_step c t e) as [s' r]; cbn [snd] in *;
          apply P; cbn [ends_multi nest_incr w_nest]; try discriminate; intros _; discriminate end.
    - intros H. destruct e; cbn [wkb_step_m begins_multi ends_multi];
        try (destruct (U l H) as (k & Hk & Vk); rewrite Hk);
        try (destruct (D l H) as (k & Hk & Vk); rewrite Hk);
        unfold and_level;
        match goal with |- context [wkb_step c ?t ?e] => destruct (wkb_step c t e) as [s' r]; cbn [fst snd] end;
        try (rewrite Vk; f_equal; lia); rewrite Z.mod_small; lia.
  Qed.
  Lemma wkb_unchecked : forall l n s, snd (feed (wkb_writer_m false c) l (n, s)) <> Err EPanic.
  Proof.
    induction l as [|[e|i m v] l IH]; intros n s; cbn [feed]; [discriminate| |].
    - cbn [wkb_writer_m p_step]. destruct (wkb_unchecked_step n s e) as [P _].
      destruct (wkb_step_m false c (n, s) e) as [[n' s'] [u|x]]; [apply IH|exact P].
    - cbn [wkb_writer_m p_prop]. apply IH.
  Qed.
  Lemma wkb_level : forall l n s q, n < 2 ^ 32 -> feed (wkb_writer_m false c) l (n, s) = (q, Ok tt) ->
    Z.of_N (fst q) = ((Z.of_N n + balance begins_multi ends_multi l) mod 2 ^ 32)%Z.
  Proof.
    induction l as [|[e|i m v] l IH]; intros n s q H E; cbn [feed] in E.
    - injection E as <-. cbn [fst]. unfold balance, tally. cbn [filter length]. rewrite Z.mod_small; lia.
    - cbn [wkb_writer_m p_step] in E. destruct (wkb_unchecked_step n s e) as [_ P]. specialize (P H).
      destruct (wkb_step_m false c (n, s) e) as [[n' s'] [u|x]]; [|discriminate E]. cbn [fst snd] in P.
      assert (H' : n' < 2 ^ 32).
      { pose proof (Z.mod_pos_bound (Z.of_N n + (if begins_multi e then 1 else 0) - (if ends_multi e then 1 else 0)) (2 ^ 32) ltac:(lia)). lia. }
      rewrite (IH n' s' q H' E), P. unfold balance. rewrite !tally_cons, Zplus_mod_idemp_l. f_equal.
      destruct (begins_multi e), (ends_multi e); lia.
    - cbn [wkb_writer_m p_prop] in E. unfold default_prop in E. rewrite (IH n s q H E). unfold balance. rewrite !tally_cons. f_equal; lia.
  Qed.
End Wkb.

(** ** GeoJSON lines *)
Section Lines.
  Variable fmt32 : N -> string.
  Variable fmt : f64 -> string.
  Notation inner := (gj_step fmt).
  Definition lplain (q : lmstate) : lwstate := (N.to_nat (fst q), snd q).
  Lemma inner_eq : forall q e, lw_inner fmt (lplain q) e = (lplain (fst (lw_inner_m fmt q e)), snd (lw_inner_m fmt q e)) /\
    fst (fst (lw_inner_m fmt q e)) = fst q.
  Proof. intros [n o] e. unfold lw_inner, lw_inner_m, lplain. cbn [fst snd]. destruct (inner o e). split; reflexivity. Qed.
  Lemma end_eq : forall ck q, (ck = true \/ snd (end_context (lplain q)) <> Err EPanic) ->
    end_context (lplain q) = (lplain (fst (end_context_m ck q)), snd (end_context_m ck q)) /\
    fst (fst (end_context_m ck q)) <= fst q.
  Proof.
    intros ck [n o] K. unfold end_context, end_context_m, lplain in *. cbn [fst snd] in *.
    destruct (N.eq_dec n 0) as [->|NZ].
    - rewrite down_zero. destruct K as [-> |K]; [split; [reflexivity|cbn [fst]; lia]|exfalso; now apply K].
    - rewrite down_some by lia. replace (N.to_nat n) with (Datatypes.S (N.to_nat (n - 1))) by lia. cbn [fst snd]. split; [|lia].
      f_equal. f_equal. destruct (N.eqb_spec (n - 1) 0) as [Q|Q]; [rewrite Q; reflexivity|].
      destruct (Nat.eqb_spec (N.to_nat (n - 1)) 0); [lia|reflexivity].
  Qed.
  Lemma begin_eq : forall ck q i e, fst q + 1 < 2 ^ 64 ->
    line_begin fmt (lplain q) i e = (lplain (fst (line_begin_m ck fmt q i e)), snd (line_begin_m ck fmt q i e)) /\
    fst (fst (line_begin_m ck fmt q i e)) = fst q + 1.
  Proof.
    intros ck [n o] i e H. unfold line_begin, line_begin_m, begin_context_m, lplain. cbn [fst snd] in *. rewrite up_some by exact H.
    unfold lw_inner, lw_inner_m. cbn [fst snd].
    assert (T : Nat.ltb 0 (N.to_nat n) = (0 <? n)).
    { destruct (N.ltb_spec 0 n), (Nat.ltb_spec 0 (N.to_nat n)); try reflexivity; lia. }
    rewrite T. destruct (inner _ e) as [out r]. cbn [fst snd]. split; [|reflexivity].
    f_equal. f_equal. lia.
  Qed.
  Lemma line_end_eq : forall ck q e, (ck = true \/ snd (line_end fmt (lplain q) e) <> Err EPanic) ->
    line_end fmt (lplain q) e = (lplain (fst (line_end_m ck fmt q e)), snd (line_end_m ck fmt q e)) /\
    fst (fst (line_end_m ck fmt q e)) <= fst q.
  Proof.
    intros ck q e K. unfold line_end, line_end_m in *. destruct (inner_eq q e) as [E F]. rewrite E in *.
    destruct (lw_inner_m fmt q e) as [q' [u|x]]; cbn [fst snd] in *.
    - destruct (end_eq ck q' K) as [A B]. split; [exact A|lia].
    - split; [reflexivity|lia].
  Qed.
  Lemma gjl_step_eq : forall ck q e, fst q + 1 < 2 ^ 64 ->
    (ck = true \/ snd (gjl_step fmt (lplain q) e) <> Err EPanic) ->
    gjl_step fmt (lplain q) e = (lplain (fst (gjl_step_m ck fmt q e)), snd (gjl_step_m ck fmt q e)) /\
    fst (fst (gjl_step_m ck fmt q e)) <= fst q + (if begins_json e then 1 else 0).
  Proof.
    intros ck q e H K.
    assert (A : forall i e', line_begin fmt (lplain q) i e' = (lplain (fst (line_begin_m ck fmt q i e')), snd (line_begin_m ck fmt q i e')) /\
      fst (fst (line_begin_m ck fmt q i e')) <= fst q + 1).
    { intros i e'. destruct (begin_eq ck q i e' H) as [X Y]. split; [exact X|lia]. }
    assert (B : forall e', (ck = true \/ snd (line_end fmt (lplain q) e') <> Err EPanic) ->
      line_end fmt (lplain q) e' = (lplain (fst (line_end_m ck fmt q e')), snd (line_end_m ck fmt q e')) /\
      fst (fst (line_end_m ck fmt q e')) <= fst q + 1).
    { intros e' K'. destruct (line_end_eq ck q e' K') as [X Y]. split; [exact X|lia]. }
    assert (B' : forall e', (ck = true \/ snd (line_end fmt (lplain q) e') <> Err EPanic) ->
      line_end fmt (lplain q) e' = (lplain (fst (line_end_m ck fmt q e')), snd (line_end_m ck fmt q e')) /\
      fst (fst (line_end_m ck fmt q e')) <= fst q + 0).
    { intros e' K'. destruct (line_end_eq ck q e' K') as [X Y]. split; [exact X|lia]. }
    assert (I : forall e', lw_inner fmt (lplain q) e' = (lplain (fst (lw_inner_m fmt q e')), snd (lw_inner_m fmt q e')) /\
      fst (fst (lw_inner_m fmt q e')) <= fst q + 0).
    { intros e'. destruct (inner_eq q e') as [X Y]. split; [exact X|lia]. }
    destruct e; cbn [gjl_step gjl_step_m begins_json] in *;
      try apply A; try (apply B'; exact K); try apply I;
      try (unfold default_step; cbn [fst snd]; split; [reflexivity|lia]).
    - (* FeatureBegin or EmptyPoint, whichever comes first *)
      destruct (begin_eq ck q idx (EmptyPoint 0) H) as [X Y]. rewrite X in *.
      destruct (line_begin_m ck fmt q idx (EmptyPoint 0)) as [q' [u|x]] eqn:L; cbn [fst snd] in *.
      + destruct (end_eq ck q' K) as [P Q]. split; [exact P|].
        unfold end_context_m in *. rewrite Y, down_some by lia. cbn [fst]. lia.
      + exfalso. unfold line_begin_m, begin_context_m in L. cbn [fst] in L. rewrite up_some in L by exact H.
        unfold lw_inner_m in L. cbn [fst snd gj_step] in L. discriminate L.
    - unfold begin_context_m. rewrite up_some by exact H. destruct q as [n o]. cbn [fst snd].
      destruct (inner_eq (n + 1, o) (FeatureBegin 0)) as [X Y]. unfold lplain in X |- *. cbn [fst snd] in *.
      replace (N.to_nat (n + 1)) with (Datatypes.S (N.to_nat n)) in X by lia. rewrite X. split; [reflexivity|lia].
  Qed.
  Lemma gjl_feed_eq : forall ck l q, fst q + tally begins_json l + 1 < 2 ^ 64 ->
    (ck = true \/ snd (feed (geojson_line_writer fmt32 fmt) l (lplain q)) <> Err EPanic) ->
    feed (geojson_line_writer fmt32 fmt) l (lplain q) =
      (lplain (fst (feed (geojson_line_writer_m ck fmt32 fmt) l q)), snd (feed (geojson_line_writer_m ck fmt32 fmt) l q)).
  Proof.
    intros ck. induction l as [|[e|i m v] l IH]; intros q B K; cbn [feed]; [reflexivity| |].
    - rewrite tally_cons in B. cbn [feed geojson_line_writer p_step] in K. cbn [geojson_line_writer geojson_line_writer_m p_step].
      assert (K' : ck = true \/ snd (gjl_step fmt (lplain q) e) <> Err EPanic).
      { destruct K as [K|K]; [now left|right]. intros Q. apply K.
        destruct (gjl_step fmt (lplain q) e) as [s' [u|x]]; [discriminate Q|exact Q]. }
      destruct (gjl_step_eq ck q e) as [E L]; [lia|exact K'|].
      destruct (gjl_step_m ck fmt q e) as [q' r]. cbn [fst snd] in E, L.
      rewrite E in K |- *. destruct r as [u|x]; [|reflexivity].
      apply IH; [destruct (begins_json e); lia|exact K].
    - rewrite tally_cons in B. cbn [geojson_line_writer geojson_line_writer_m p_prop]. cbn [feed geojson_line_writer p_prop] in K.
      unfold gjl_prop, gjl_prop_m in *. destruct q as [n o]. unfold lplain in *. cbn [fst snd] in *.
      destruct (gj_prop fmt32 fmt o i m v) as [out [b|x]]; [|reflexivity].
      apply (IH (n, out)); [cbn [fst]; lia|exact K].
  Qed.
  Lemma gjl_same : forall ck l out, tally begins_json l + 1 < 2 ^ 64 ->
    (ck = true \/ snd (feed (geojson_line_writer fmt32 fmt) l (0%nat, out)) <> Err EPanic) ->
    snd (fst (feed (geojson_line_writer_m ck fmt32 fmt) l (0, out))) = snd (fst (feed (geojson_line_writer fmt32 fmt) l (0%nat, out))) /\
    snd (feed (geojson_line_writer_m ck fmt32 fmt) l (0, out)) = snd (feed (geojson_line_writer fmt32 fmt) l (0%nat, out)).
  Proof.
    intros ck l out B K. pose proof (gjl_feed_eq ck l (0, out)) as E. cbn [fst] in E.
    change (lplain (0, out)) with (0%nat, out) in E. rewrite E by (exact K || lia). split; reflexivity.
  Qed.

  (** without checks *)
  Lemma inner_ok : forall o e, begins_json e = true \/ ends_json e = true \/ e = EmptyPoint 0 -> exists o', inner o e = (o', Ok tt).
  Proof. intros o e [H|[H| ->]]; [| |eexists; reflexivity]; destruct e; try discriminate H; eexists; reflexivity. Qed.
  Lemma up_mod : forall n, n < 2 ^ 64 -> exists k, up false 64 n = Some k /\ k < 2 ^ 64 /\ Z.of_N k = ((Z.of_N n + 1) mod 2 ^ 64)%Z.
  Proof.
    intros n H. unfold up. destruct (N.ltb_spec (n + 1) (2 ^ 64)) as [L|L]; eexists; (split; [reflexivity|]).
    - split; [exact L|]. rewrite Z.mod_small; lia.
    - split; [reflexivity|]. replace (Z.of_N n + 1)%Z with (2 ^ 64)%Z by lia. reflexivity.
  Qed.
  Lemma down_mod : forall n, n < 2 ^ 64 -> exists k, down false 64 n = Some k /\ k < 2 ^ 64 /\ Z.of_N k = ((Z.of_N n - 1) mod 2 ^ 64)%Z.
  Proof.
    intros n H. unfold down. destruct (N.ltb_spec 0 n) as [L|L]; eexists; (split; [reflexivity|]).
    - split; [lia|]. rewrite Z.mod_small; lia.
    - split; [reflexivity|]. replace n with 0 by lia. reflexivity.
  Qed.
  Lemma gjl_unchecked_step : forall n o e, n < 2 ^ 64 -> exists k out, gjl_step_m false fmt (n, o) e = ((k, out), Ok tt) /\ k < 2 ^ 64 /\
    Z.of_N k = ((Z.of_N n + (if begins_json e then 1 else 0) - (if ends_json e then 1 else 0)) mod 2 ^ 64)%Z.
  Proof.
    intros n o e H. destruct (up_mod n H) as (u & U & UL & UV). destruct (down_mod n H) as (d & D & DL & DV).
    assert (A : forall i e', begins_json e' = true -> exists k out, line_begin_m false fmt (n, o) i e' = ((k, out), Ok tt) /\ k < 2 ^ 64 /\
      Z.of_N k = ((Z.of_N n + 1 - 0) mod 2 ^ 64)%Z).
    { intros i e' B. unfold line_begin_m, begin_context_m. cbn [fst snd]. rewrite U. unfold lw_inner_m. cbn [fst snd].
      match goal with |- context [inner ?a e'] => destruct (inner_ok a e' (or_introl B)) as [o' ->] end.
      exists u, o'. rewrite Z.sub_0_r. auto. }
    assert (B : forall e', ends_json e' = true -> exists k out, line_end_m false fmt (n, o) e' = ((k, out), Ok tt) /\ k < 2 ^ 64 /\
      Z.of_N k = ((Z.of_N n + 0 - 1) mod 2 ^ 64)%Z).
    { intros e' E. unfold line_end_m, lw_inner_m. cbn [fst snd].
      destruct (inner_ok o e' (or_intror (or_introl E))) as [o' ->]. unfold end_context_m. cbn [fst snd]. rewrite D.
      eexists _, _. split; [reflexivity|]. rewrite Z.add_0_r. auto. }
    destruct e; cbn [gjl_step_m begins_json ends_json]; try (apply A; reflexivity); try (apply B; reflexivity);
      try (rewrite Z.add_0_r, Z.sub_0_r; unfold default_step, lw_inner_m; cbn [fst snd gj_step];
           eexists _, _; (split; [reflexivity|]); split; [exact H|rewrite Z.mod_small; lia]).
    - rewrite Z.add_0_r, Z.sub_0_r. unfold line_begin_m, begin_context_m. cbn [fst snd]. rewrite U. unfold lw_inner_m. cbn [fst snd].
      match goal with |- context [inner ?a ?e'] => destruct (inner_ok a e' (or_intror (or_intror eq_refl))) as [o' ->] end.
      unfold end_context_m. cbn [fst snd]. destruct (down_mod u UL) as (k & K & KL & KV). rewrite K.
      eexists _, _. split; [reflexivity|]. split; [exact KL|]. rewrite KV, UV, Zminus_mod_idemp_l. f_equal. lia.
    - unfold begin_context_m. cbn [fst snd]. rewrite U. unfold lw_inner_m. cbn [fst snd gj_step].
      eexists _, _. split; [reflexivity|]. rewrite Z.sub_0_r. auto.
  Qed.
  Lemma gjl_unchecked : forall l n o, n < 2 ^ 64 -> exists q, feed (geojson_line_writer_m false fmt32 fmt) l (n, o) = (q, Ok tt) /\
    Z.of_N (fst q) = ((Z.of_N n + balance begins_json ends_json l) mod 2 ^ 64)%Z.
  Proof.
    induction l as [|[e|i m v] l IH]; intros n o H; cbn [feed].
    - eexists. split; [reflexivity|]. cbn [fst]. unfold balance, tally. cbn [filter length]. rewrite Z.mod_small; lia.
    - cbn [geojson_line_writer_m p_step]. destruct (gjl_unchecked_step n o e H) as (k & out & -> & L & V).
      destruct (IH k out L) as (q & E & W). exists q. split; [exact E|]. rewrite W, V. unfold balance.
      rewrite !tally_cons, Zplus_mod_idemp_l. f_equal. destruct (begins_json e), (ends_json e); lia.
    - cbn [geojson_line_writer_m p_prop]. unfold gjl_prop_m. cbn [fst snd].
      assert (P : exists out b, gj_prop fmt32 fmt o i m v = (out, Ok b)) by (destruct v; eexists _, _; reflexivity).
      destruct P as (out & b & ->). destruct (IH n out H) as (q & E & W). exists q. split; [exact E|]. rewrite W.
      unfold balance. rewrite !tally_cons. f_equal; lia.
  Qed.
End Lines.
