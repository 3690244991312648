(** Shapefile iterators over a failing destination (helper lemmas for C59). *)
From Coq Require Import String Ascii.
From Coq Require Import List NArith ZArith Lia Bool.
From Verif Require Import Base BaseLemmas Event FeatureSpec ShpModel GeoJsonModel SvgModel SinkModel SinkSpec SinkTop SinkRead.
Import ListNotations.
Local Open Scope list_scope.

Definition prefix {X} (a b : list X) : Prop := exists k, b = a ++ k.
Lemma prefix_refl : forall X (l : list X), prefix l l.
Proof. intros. exists []. now rewrite app_nil_r. Qed.
Lemma prefix_trans : forall X (a b c : list X), prefix a b -> prefix b c -> prefix a c.
Proof. intros X a b c [k ->] [k' ->]. exists (k ++ k'). now rewrite app_assoc. Qed.
Lemma prefix_length : forall X (a b : list X), prefix a b -> length a <= length b.
Proof. intros X a b [k ->]. rewrite app_length. lia. Qed.
Lemma prefix_firstn : forall X (a b : list X) n, prefix a b -> n <= length a -> firstn n a = firstn n b.
Proof.
  intros X a b n [k ->] H. rewrite firstn_app. replace (n - length a) with 0 by lia. now rewrite firstn_O, app_nil_r.
Qed.

Section Shp.
  Context {S X : Type}.
  Variable ck : bool.
  Variable leftover : list Byte.byte -> list Byte.byte.
  Variable out : S -> list X.
  Variable cap : nat.
  Variable p : proc S.
  Hypothesis grows : appends out p.
  Hypothesis calm : calm_framing p.
  Notation q := (limited out unbuffered cap p).

  Lemma exec_prefix : forall A (g : prog A) s, prefix (out s) (out (fst (exec p g s))).
  Proof. intros. apply exec_grows. exact grows. Qed.
  Lemma step_prefix : forall s e, prefix (out s) (out (fst (p_step p s e))).
  Proof. apply grows. Qed.
  Definition said (e : event) (s : S) : S := fst (p_step p s e).
  Lemma tell_prefix : forall e s, prefix (out s) (out (said e s)).
  Proof. intros. apply step_prefix. Qed.

  Lemma step_q : forall s e, p_step q s e =
    let (s', r) := p_step p s e in (s', if overflows out unbuffered cap s s' then Err EIo else r).
  Proof. reflexivity. Qed.
  Lemma prop_q : forall s i n v, p_prop q s i n v =
    let (s', r) := p_prop p s i n v in (s', if overflows out unbuffered cap s s' then Err EIo else r).
  Proof. reflexivity. Qed.
  Lemma told_p : forall e s, is_feature_event e = true -> told p s e = (said e s, Ok tt).
  Proof.
    intros e s He. unfold told, said. pose proof (calm s e He) as H. destruct (p_step p s e) as [s' [u|[]]]; try reflexivity.
    exfalso. now apply H.
  Qed.
  Lemma told_q : forall e s, is_feature_event e = true -> told q s e = (said e s, Ok tt).
  Proof.
    intros e s He. unfold told, said. rewrite step_q. pose proof (calm s e He) as H.
    destruct (p_step p s e) as [s' [u|[]]]; cbn [fst]; destruct (overflows out unbuffered cap s s'); try reflexivity.
    exfalso. now apply H.
  Qed.
  (** framing callbacks do not fail *)
  Definition framed_next (r : proc S) (it : feature_iter) (s : S)
    : feature_iter * S * option (res dbf_record) :=
    let s := if Nat.eqb (fi_no it) 0 then said (DatasetBegin None) s else s in
    if N.leb (it_length (fi_shapes it)) (it_pos (fi_shapes it)) then (it, said DatasetEnd s, None)
    else
      let it1 := mkFIter (fi_shapes it) (tl (fi_records it)) (fi_after it) (fi_no it) in
      match dbf_next it with
      | None => (it1, said DatasetEnd s, None)
      | Some (Err _) => (it1, s, Some (Err DbaseError))
      | Some (Ok record) =>
          let s := said PropertiesBegin (said (FeatureBegin (fi_no it)) s) in
          match exec r (process_properties 0 record) s with
          | (s, Err e) => (it1, s, Some (Err e))
          | (s, Ok _) =>
              let s := said GeometryBegin (said PropertiesEnd s) in
              match shape_next ck leftover r (fi_shapes it) s with
              | (shapes, s, None) =>
                  (mkFIter shapes (tl (fi_records it)) (fi_after it) (fi_no it), s, None)
              | (shapes, s, Some (Err e)) =>
                  (mkFIter shapes (tl (fi_records it)) (fi_after it) (fi_no it), s, Some (Err e))
              | (shapes, s, Some (Ok _)) =>
                  (mkFIter shapes (tl (fi_records it)) (fi_after it) (Datatypes.S (fi_no it)),
                   said (FeatureEnd (fi_no it)) (said GeometryEnd s), Some (Ok record))
              end
          end
      end.
  Lemma tell_said : forall (r : proc S) l s, (forall e s, is_feature_event e = true -> told r s e = (said e s, Ok tt)) ->
    Forall (fun e => is_feature_event e = true) l -> tell r l s = (fold_left (fun s e => said e s) l s, Ok tt).
  Proof.
    intros r l s Hr H. revert s. induction H as [|e l He Hl IH]; intros s; [reflexivity|].
    unfold tell in *. cbn [run p_step fold_left]. rewrite Hr by exact He. apply IH.
  Qed.
  Lemma next_said : forall r it s, (forall e s, is_feature_event e = true -> told r s e = (said e s, Ok tt)) ->
    feature_next ck leftover r it s = framed_next r it s.
  Proof.
    intros r it s Hr. unfold feature_next, framed_next. cbv zeta.
    rewrite (tell_said r (if Nat.eqb (fi_no it) 0 then _ else _)) by (try exact Hr; destruct (Nat.eqb (fi_no it) 0); repeat constructor).
    cbv iota beta. replace (fold_left (fun s e => said e s) (if Nat.eqb (fi_no it) 0 then [DatasetBegin None] else []) s)
      with (if Nat.eqb (fi_no it) 0 then said (DatasetBegin None) s else s) by (destruct (Nat.eqb (fi_no it) 0); reflexivity).
    rewrite (tell_said r [DatasetEnd]) by (try exact Hr; repeat constructor). cbv iota beta.
    destruct (N.leb _ _); [reflexivity|]. destruct (dbf_next it) as [[record|e]|]; [|reflexivity|reflexivity].
    rewrite (tell_said r [FeatureBegin _; _]) by (try exact Hr; repeat constructor). cbv iota beta. cbn [fold_left].
    destruct (exec r _ _) as [s1 [b|x]]; [|reflexivity].
    rewrite (tell_said r [PropertiesEnd; _]) by (try exact Hr; repeat constructor). cbv iota beta. cbn [fold_left].
    destruct (shape_next _ _ _ _ _) as [[shapes s2] [[u|x]|]]; try reflexivity.
    rewrite (tell_said r [GeometryEnd; _]) by (try exact Hr; repeat constructor). reflexivity.
  Qed.
  Lemma next_p : forall it s, feature_next ck leftover p it s = framed_next p it s.
  Proof. intros. apply next_said. exact told_p. Qed.
  Lemma next_q : forall it s, feature_next ck leftover q it s = framed_next q it s.
  Proof. intros. apply next_said. exact told_q. Qed.
  (** whatever is in the destination, an execution goes on as without a limit or stops with an I/O error *)
  Lemma exec_either : forall A (g : prog A) s, exec q g s = exec p g s \/
    exists s2, exec q g s = (s2, Err EIo) /\ cap < length (out s2) /\ prefix (out s2) (out (fst (exec p g s))).
  Proof.
    induction g as [r|e k IH|e k IH|i n v k IH]; intros s; cbn [exec].
    - now left.
    - rewrite step_q. destruct (p_step p s e) as [s' r].
      destruct (overflows out unbuffered cap s s') eqn:Eo.
      + right. exists s'. split; [reflexivity|]. apply andb_true_iff in Eo. destruct Eo as [Eo _].
        apply Nat.ltb_lt in Eo. split; [exact Eo|]. destruct r; [apply exec_prefix|apply prefix_refl].
      + destruct r; [apply IH|now left].
    - rewrite step_q. destruct (p_step p s e) as [s' r]. cbn [fst]. apply IH.
    - rewrite prop_q. destruct (p_prop p s i n v) as [s' r].
      destruct (overflows out unbuffered cap s s') eqn:Eo.
      + right. exists s'. split; [reflexivity|]. apply andb_true_iff in Eo. destruct Eo as [Eo _].
        apply Nat.ltb_lt in Eo. split; [exact Eo|]. destruct r; [apply exec_prefix|apply prefix_refl].
      + destruct r; [apply IH|now left].
  Qed.

  (** ** Geometries *)
  Lemma shape_next_prefix : forall it s, prefix (out s) (out (snd (fst (shape_next ck leftover p it s)))).
  Proof.
    intros it s. unfold shape_next. destruct (N.leb _ _); [apply prefix_refl|].
    pose proof (exec_prefix _ (read_shape ck (p_dims p) (it_source it)) s) as H.
    destruct (exec p (read_shape ck (p_dims p) (it_source it)) s) as [s' [[hdr rest]|e]]; [|exact H].
    destruct (advance ck (it_pos it) (snd hdr)); exact H.
  Qed.
  Lemma shape_next_either : forall it s,
    shape_next ck leftover q it s = shape_next ck leftover p it s \/
    exists it2 s2, shape_next ck leftover q it s = (it2, s2, Some (Err EIo)) /\ cap < length (out s2) /\
      prefix (out s2) (out (snd (fst (shape_next ck leftover p it s)))).
  Proof.
    intros it s. unfold shape_next. destruct (N.leb _ _); [now left|].
    change (p_dims q) with (p_dims p).
    destruct (exec_either _ (read_shape ck (p_dims p) (it_source it)) s) as [->|(s2 & -> & Hc & Hp)]; [now left|].
    right. do 2 eexists. split; [reflexivity|]. split; [exact Hc|].
    destruct (exec p (read_shape ck (p_dims p) (it_source it)) s) as [s' [[hdr rest]|e]]; [|exact Hp].
    destruct (advance ck (it_pos it) (snd hdr)); exact Hp.
  Qed.
  (** a shape read within the limit *)
  Lemma shape_next_limited : forall it s, length (out s) <= cap ->
    if Nat.leb (length (out (snd (fst (shape_next ck leftover p it s))))) cap
    then shape_next ck leftover q it s = shape_next ck leftover p it s
    else exists it2 s2, shape_next ck leftover q it s = (it2, s2, Some (Err EIo)) /\ cap < length (out s2) /\
      prefix (out s2) (out (snd (fst (shape_next ck leftover p it s)))).
  Proof.
    intros it s Hc. unfold shape_next. destruct (N.leb _ _).
    { cbn [fst snd]. destruct (Nat.leb_spec (length (out s)) cap); [reflexivity|lia]. }
    change (p_dims q) with (p_dims p).
    pose proof (exec_limited out unbuffered (fun n => le_n n) (fun n m H => H) cap p grows _ (read_shape ck (p_dims p) (it_source it)) s
                  (shape_heeds _ _ _) Hc) as H.
    unfold outcome in H. change (unbuffered ?n) with n in H.
    set (full := exec p (read_shape ck (p_dims p) (it_source it)) s) in *.
    assert (snd (fst (match full with
      | (s', Ok (hdr, rest)) =>
          match advance ck (it_pos it) (snd hdr) with
          | Ok pos => (mkIter rest pos (it_length it), s', Some (Ok tt))
          | Err e => (mkIter rest (it_pos it) (it_length it), s', Some (Err e))
          end
      | (s', Err e) => (mkIter (leftover (it_source it)) (it_pos it) (it_length it), s', Some (Err e))
      end)) = fst full) as E.
    { destruct full as [s' [[hdr rest]|e]]; [|reflexivity]. now destruct (advance ck (it_pos it) (snd hdr)). }
    rewrite E. destruct (Nat.leb _ cap).
    - now rewrite H.
    - destruct H as (s2 & -> & Hs & Hp). do 2 eexists. split; [reflexivity|]. split; assumption.
  Qed.
  Lemma consume_shapes_prefix : forall n it s, prefix (out s) (out (fst (consume_shapes ck leftover p n it s))).
  Proof.
    induction n as [|n IH]; intros it s; cbn [consume_shapes]; [apply prefix_refl|].
    pose proof (shape_next_prefix it s) as H.
    destruct (shape_next ck leftover p it s) as [[it' s'] [[u|e]|]]; try exact H.
    eapply prefix_trans; [exact H|apply IH].
  Qed.
  Lemma consume_shapes_limited : forall n it s, length (out s) <= cap ->
    let (s1, r1) := consume_shapes ck leftover p n it s in
    if Nat.leb (length (out s1)) cap then consume_shapes ck leftover q n it s = (s1, r1)
    else exists s2, consume_shapes ck leftover q n it s = (s2, Some (Err EIo)) /\ stored out cap s2 = firstn cap (out s1).
  Proof.
    induction n as [|n IH]; intros it s Hc; cbn [consume_shapes].
    - destruct (Nat.leb_spec (length (out s)) cap); [reflexivity|lia].
    - pose proof (shape_next_limited it s Hc) as H.
      destruct (shape_next ck leftover p it s) as [[it' s'] x]. cbn [fst snd] in H.
      destruct (Nat.leb_spec (length (out s')) cap) as [Hl|Hl].
      + rewrite H. destruct x as [[u|e]|].
        * now apply IH.
        * destruct (Nat.leb_spec (length (out s')) cap); [reflexivity|lia].
        * destruct (Nat.leb_spec (length (out s')) cap); [reflexivity|lia].
      + destruct H as (it2 & s2 & -> & H2 & Hp).
        assert (prefix (out s2) (out (fst match x with
           | Some (Ok _) => consume_shapes ck leftover p n it' s'
           | Some (Err e) => (s', Some (Err e))
           | None => (s', Some (Ok tt)) end))) as Hq.
        { eapply prefix_trans; [exact Hp|]. destruct x as [[u|e]|]; try apply prefix_refl. apply consume_shapes_prefix. }
        destruct (match x with
           | Some (Ok _) => consume_shapes ck leftover p n it' s'
           | Some (Err e) => (s', Some (Err e))
           | None => (s', Some (Ok tt)) end) as [s1 r1]. cbn [fst] in Hq.
        pose proof (prefix_length _ _ _ Hq). destruct (Nat.leb_spec (length (out s1)) cap); [lia|].
        exists s2. split; [reflexivity|]. unfold stored. apply prefix_firstn; [exact Hq|lia].
  Qed.

  (** ** Features *)
  Definition next_state {A B} (r : A * S * B) : S := snd (fst r).
  Lemma feature_next_prefix : forall it s, prefix (out s) (out (next_state (feature_next ck leftover p it s))).
  Proof.
    intros it s. rewrite next_p. unfold framed_next, next_state.
    set (s0 := if Nat.eqb (fi_no it) 0 then said (DatasetBegin None) s else s).
    assert (prefix (out s) (out s0)) as H0.
    { unfold s0. destruct (Nat.eqb (fi_no it) 0); [apply tell_prefix|apply prefix_refl]. }
    clearbody s0. eapply prefix_trans; [exact H0|]. clear H0.
    destruct (N.leb _ _); [apply tell_prefix|].
    destruct (dbf_next it) as [[record|e]|]; [|apply prefix_refl|apply tell_prefix].
    set (s1 := said PropertiesBegin (said (FeatureBegin (fi_no it)) s0)).
    assert (prefix (out s0) (out s1)) as H1 by (eapply prefix_trans; apply tell_prefix).
    clearbody s1. eapply prefix_trans; [exact H1|]. clear H1.
    pose proof (exec_prefix _ (process_properties 0 record) s1) as H2.
    destruct (exec p (process_properties 0 record) s1) as [s2 [b|e]]; [|exact H2]. cbn [fst] in H2.
    eapply prefix_trans; [exact H2|]. clear H2.
    set (s3 := said GeometryBegin (said PropertiesEnd s2)).
    assert (prefix (out s2) (out s3)) as H3 by (eapply prefix_trans; apply tell_prefix).
    clearbody s3. eapply prefix_trans; [exact H3|]. clear H3.
    pose proof (shape_next_prefix (fi_shapes it) s3) as H4.
    destruct (shape_next ck leftover p (fi_shapes it) s3) as [[it4 s4] [[u|e]|]]; try exact H4.
    cbn [fst snd] in H4 |- *. eapply prefix_trans; [exact H4|]. eapply prefix_trans; apply tell_prefix.
  Qed.
  Lemma feature_next_either : forall it s,
    feature_next ck leftover q it s = feature_next ck leftover p it s \/
    exists it2 s2, feature_next ck leftover q it s = (it2, s2, Some (Err EIo)) /\ cap < length (out s2) /\
      prefix (out s2) (out (next_state (feature_next ck leftover p it s))).
  Proof.
    intros it s. rewrite next_p, next_q. unfold framed_next, next_state. cbv zeta.
    set (s0 := if Nat.eqb (fi_no it) 0 then said (DatasetBegin None) s else s). clearbody s0.
    destruct (N.leb _ _); [now left|].
    destruct (dbf_next it) as [[record|e]|]; try now left.
    set (s1 := said PropertiesBegin (said (FeatureBegin (fi_no it)) s0)). clearbody s1.
    set (it1 := mkFIter (fi_shapes it) (tl (fi_records it)) (fi_after it) (fi_no it)).
    assert (forall s2 : S, prefix (out s2) (out (snd (fst
      (let s := said GeometryBegin (said PropertiesEnd s2) in
       match shape_next ck leftover p (fi_shapes it) s with
       | (shapes, s, None) => (mkFIter shapes (tl (fi_records it)) (fi_after it) (fi_no it), s, None)
       | (shapes, s, Some (Err e)) => (mkFIter shapes (tl (fi_records it)) (fi_after it) (fi_no it), s, Some (Err e))
       | (shapes, s, Some (Ok _)) => (mkFIter shapes (tl (fi_records it)) (fi_after it) (Datatypes.S (fi_no it)),
           said (FeatureEnd (fi_no it)) (said GeometryEnd s), Some (Ok record))
       end))))) as Hrest.
    { intros s2. cbv zeta. set (s3 := said GeometryBegin (said PropertiesEnd s2)).
      assert (prefix (out s2) (out s3)) as H3 by (eapply prefix_trans; apply tell_prefix).
      clearbody s3. eapply prefix_trans; [exact H3|]. clear H3.
      pose proof (shape_next_prefix (fi_shapes it) s3) as H4.
      destruct (shape_next ck leftover p (fi_shapes it) s3) as [[it4 s4] [[u|e]|]]; try exact H4.
      cbn [fst snd] in H4 |- *. eapply prefix_trans; [exact H4|]. eapply prefix_trans; apply tell_prefix. }
    destruct (exec_either _ (process_properties 0 record) s1) as [->|(s2 & -> & Hc & Hp)].
    - destruct (exec p (process_properties 0 record) s1) as [s2 [b|e]]; [|now left].
      set (s3 := said GeometryBegin (said PropertiesEnd s2)). clearbody s3. clear Hrest.
      destruct (shape_next_either (fi_shapes it) s3) as [->|(it5 & s5 & -> & Hc & Hp)].
      + left. destruct (shape_next ck leftover p (fi_shapes it) s3) as [[it4 s4] [[u|e]|]]; reflexivity.
      + right. do 2 eexists. split; [reflexivity|]. split; [exact Hc|].
        destruct (shape_next ck leftover p (fi_shapes it) s3) as [[it4 s4] [[u|e]|]]; try exact Hp.
        cbn [fst snd] in Hp |- *. eapply prefix_trans; [exact Hp|]. eapply prefix_trans; apply tell_prefix.
    - right. do 2 eexists. split; [reflexivity|]. split; [exact Hc|].
      destruct (exec p (process_properties 0 record) s1) as [s2' [b|e]]; [|exact Hp]. cbn [fst] in Hp.
      eapply prefix_trans; [exact Hp|]. apply Hrest.
  Qed.
  Lemma consume_prefix : forall n it s, prefix (out s) (out (fst (consume ck leftover p n it s))).
  Proof.
    induction n as [|n IH]; intros it s; cbn [consume]; [apply prefix_refl|].
    pose proof (feature_next_prefix it s) as H. unfold next_state in H.
    destruct (feature_next ck leftover p it s) as [[it' s'] [[u|e]|]]; try exact H.
    eapply prefix_trans; [exact H|apply IH].
  Qed.
  Lemma consume_either : forall n it s,
    consume ck leftover q n it s = consume ck leftover p n it s \/
    exists s2, consume ck leftover q n it s = (s2, Some (Err EIo)) /\ cap < length (out s2) /\
      prefix (out s2) (out (fst (consume ck leftover p n it s))).
  Proof.
    induction n as [|n IH]; intros it s; cbn [consume]; [now left|].
    destruct (feature_next_either it s) as [->|(it2 & s2 & -> & Hc & Hp)].
    - destruct (feature_next ck leftover p it s) as [[it' s'] [[u|e]|]]; try now left. apply IH.
    - right. exists s2. split; [reflexivity|]. split; [exact Hc|]. unfold next_state in Hp.
      destruct (feature_next ck leftover p it s) as [[it' s'] [[u|e]|]]; try exact Hp.
      eapply prefix_trans; [exact Hp|apply consume_prefix].
  Qed.
  Lemma consume_stored : forall n it s,
    let (s1, r1) := consume ck leftover p n it s in
    let (s2, r2) := consume ck leftover q n it s in
    stored out cap s2 = firstn cap (out s1) /\ (r2 = r1 \/ r2 = Some (Err EIo)) /\
    (length (out s1) <= cap -> r2 = r1).
  Proof.
    intros n it s. destruct (consume_either n it s) as [->|(s2 & -> & Hc & Hp)].
    - destruct (consume ck leftover p n it s) as [s1 r1]. unfold stored. auto.
    - destruct (consume ck leftover p n it s) as [s1 r1]. cbn [fst] in Hp. split; [|split].
      + unfold stored. apply prefix_firstn; [exact Hp|lia].
      + now right.
      + intros H. apply prefix_length in Hp. lia.
  Qed.

  (** the last callback of a file that was read to its end is dataset_end; its failure is dropped *)
  Lemma consume_end : forall n it s s1, consume ck leftover p n it s = (s1, Some (Ok tt)) ->
    exists s0, s1 = said DatasetEnd s0 /\ prefix (out s) (out s0) /\
      (length (out s0) <= cap -> consume ck leftover q n it s = (s1, Some (Ok tt))).
  Proof.
    induction n as [|n IH]; intros it s s1 H; cbn [consume] in H |- *; [discriminate|].
    pose proof (feature_next_either it s) as He. unfold next_state in He.
    pose proof (feature_next_prefix it s) as Hp0. unfold next_state in Hp0.
    destruct (feature_next ck leftover p it s) as [[it' s'] x] eqn:E. cbn [fst snd] in He, Hp0.
    destruct x as [[record|e]|].
    - destruct (IH it' s' s1 H) as (s0 & E0 & Hs & Hq). exists s0. split; [exact E0|].
      split; [eapply prefix_trans; eassumption|]. intros Hc.
      destruct He as [->|(it2 & s2 & _ & Hc2 & Hp)]; [now apply Hq|]. exfalso.
      pose proof (prefix_length _ _ _ Hp). pose proof (prefix_length _ _ _ Hs). lia.
    - discriminate.
    - inversion H; subst s1. clear H He Hp0. rewrite next_q. rewrite next_p in E. unfold framed_next in E |- *. cbv zeta in E |- *.
      set (s0 := if Nat.eqb (fi_no it) 0 then said (DatasetBegin None) s else s) in *.
      assert (prefix (out s) (out s0)) as H0.
      { unfold s0. destruct (Nat.eqb (fi_no it) 0); [apply tell_prefix|apply prefix_refl]. }
      clearbody s0.
      destruct (N.leb (it_length (fi_shapes it)) (it_pos (fi_shapes it))) eqn:El.
      { inversion E; subst. exists s0. auto. }
      destruct (dbf_next it) as [[record|e]|]; [|discriminate|].
      + exfalso. destruct (exec p (process_properties 0 record) _) as [s2 [b|e]]; [|discriminate].
        unfold shape_next in E. rewrite El in E.
        destruct (exec p (read_shape _ _ _) _) as [s3 [[hdr rest]|e]]; [|discriminate].
        destruct (advance ck (it_pos (fi_shapes it)) (snd hdr)); discriminate.
      + inversion E; subst. exists s0. auto.
  Qed.
End Shp.

Lemma geojson_calm : forall fmt32 fmt d, calm_framing (geojson_writer fmt32 fmt d).
Proof. intros fmt32 fmt d s e _. now destruct e. Qed.
Lemma svg_calm : forall fmt c, calm_framing (svg_writer fmt c).
Proof. intros fmt c s e _. cbn. unfold svg_step. destruct e; discriminate. Qed.

Lemma geojson_end_lost : forall ck leftover fmt32 fmt d n it s t,
  consume ck leftover (geojson_writer fmt32 fmt d) n it s = (t, Some (Ok tt)) ->
  forall cap, length (chars t) <= cap + 2 ->
  consume ck leftover (limited chars unbuffered cap (geojson_writer fmt32 fmt d)) n it s = (t, Some (Ok tt)).
Proof.
  intros ck leftover fmt32 fmt d n it s t H cap Hc.
  destruct (consume_end ck leftover chars cap _ (geojson_appends fmt32 fmt d) (geojson_calm _ _ _) _ _ _ _ H) as (s0 & -> & _ & Hq).
  apply Hq. unfold said in Hc. cbn [geojson_writer p_step gj_step fst] in Hc. rewrite chars_app, app_length in Hc.
  cbn in Hc. lia.
Qed.
Lemma svg_end_lost : forall ck leftover fmt c n it s t,
  consume ck leftover (svg_writer fmt c) n it s = (t, Some (Ok tt)) ->
  forall cap, length (chars t) <= cap + 12 ->
  consume ck leftover (limited chars unbuffered cap (svg_writer fmt c)) n it s = (t, Some (Ok tt)).
Proof.
  intros ck leftover fmt c n it s t H cap Hc.
  destruct (consume_end ck leftover chars cap _ (svg_appends fmt c) (svg_calm _ _) _ _ _ _ H) as (s0 & -> & _ & Hq).
  apply Hq. unfold said in Hc. cbn [svg_writer p_step svg_step fst] in Hc. rewrite chars_app, app_length in Hc.
  cbn in Hc. lia.
Qed.

Lemma shapes_report : forall ck leftover n it S X (out : S -> list X) (p : proc S), appends out p ->
  reports out unbuffered p (fun q s => consume_shapes ck leftover q n it s) (Some (Err EIo)).
Proof. intros ck leftover n it S X out p Ha s cap Hc. now apply consume_shapes_limited. Qed.
