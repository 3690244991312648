(** Shape of the callback streams of the WKB readers on arbitrary input (helper lemmas for
    C09). *)
From Coq Require Import String Ascii.
From Coq Require Import List NArith ZArith Lia Bool ZifyBool ZifyNat ZifyN.
From Coq Require Import Init.Byte.
From Verif Require Import Base BaseLemmas Float Event EventLemmas Geom WkbModel WkbSpec WkbClaims WkbRead WkbInv.
Import ListNotations.
Local Open Scope nat_scope.
Local Open Scope list_scope.

(** [gen f P]: whenever [f] succeeds with callbacks [l] and result [a], [P l a] *)
Definition gen {A} (f : rd A) (P : list event -> A -> Prop) : Prop := forall b, exists l r,
  f b = calls l (Done r) /\ match r with Ok (a, _) => P l a | Err _ => True end.

Lemma gen_ret : forall A (a : A) (P : list event -> A -> Prop), P [] a -> gen (rret a) P.
Proof. intros A a P H b. exists [], (Ok (a, b)). split; [reflexivity|exact H]. Qed.
Lemma gen_fail : forall A e (P : list event -> A -> Prop), gen (rfail e) P.
Proof. intros A e P b. exists [], (Err e). split; [reflexivity|exact I]. Qed.
Lemma gen_call : forall e (P : list event -> unit -> Prop), P [e] tt -> gen (rcall e) P.
Proof. intros e P H b. exists [e], (Ok (tt, b)). split; [reflexivity|exact H]. Qed.

Lemma gen_bind : forall A B (f : rd A) (g : A -> rd B) (P : list event -> A -> Prop) (Q : list event -> B -> Prop),
  gen f P -> (forall l a, P l a -> gen (g a) (fun l' c => Q (l ++ l') c)) ->
  gen (rbind f g) Q.
Proof.
  intros * Hf Hg b. destruct (Hf b) as (l & [[a rest]|e] & H1 & H2).
  - destruct (Hg l a H2 rest) as (l' & r' & G1 & G2). exists (l ++ l'), r'.
    split; [rewrite (rbind_calls _ _ _ _ _ _ _ _ H1), G1, calls_app; reflexivity|exact G2].
  - exists l, (Err e). split; [apply rbind_calls_err; exact H1|exact I].
Qed.

Lemma gen_mono : forall A (f : rd A) (P Q : list event -> A -> Prop),
  gen f P -> (forall l a, P l a -> Q l a) -> gen f Q.
Proof.
  intros * H HPQ b. destruct (H b) as (l & r & H1 & H2). exists l, r. split; [exact H1|].
  destruct r as [[a rest]|e]; auto.
Qed.

Lemma gen_take : forall k, gen (rtake k) (fun l a => l = [] /\ length a = k).
Proof.
  intros k b. unfold rtake. destruct (Nat.ltb_spec (length b) k).
  - exists [], (Err EIo). split; [reflexivity|exact I].
  - exists [], (Ok (firstn k b, skipn k b)). split; [reflexivity|]. split; [reflexivity|].
    rewrite firstn_length. lia.
Qed.

Lemma gen_map : forall A B (h : A -> B) f (P : list event -> A -> Prop) (Q : list event -> B -> Prop),
  gen f P -> (forall l a, P l a -> Q l (h a)) -> gen (rmap h f) Q.
Proof.
  intros * H HPQ. eapply gen_bind; [exact H|]. intros l a Hl. apply gen_ret. rewrite app_nil_r. auto.
Qed.

Definition silent {A} (R : A -> Prop) (l : list event) (a : A) : Prop := l = [] /\ R a.

Lemma gen_silent : forall A B (f : rd A) (g : A -> rd B) (R : A -> Prop) (Q : list event -> B -> Prop),
  gen f (silent R) -> (forall a, R a -> gen (g a) Q) -> gen (rbind f g) Q.
Proof. intros * Hf Hg. eapply gen_bind; [exact Hf|]. intros l a [-> Ha]. apply Hg. exact Ha. Qed.

Lemma gen_val : forall e k,
  gen (rmap (val_of e) (rtake k)) (silent (fun n => n < 256 ^ N.of_nat k)%N).
Proof.
  intros e k. eapply gen_map; [apply gen_take|]. intros l a [-> Ha]. split; [reflexivity|].
  rewrite <- Ha. apply val_of_lt.
Qed.
Lemma gen_u32 : forall e, gen (r_u32 e) (silent (fun n => n < 2 ^ 32)%N).
Proof. intros e. apply (gen_val e 4). Qed.
Lemma gen_f64 : forall e, gen (r_f64 e) (silent f64_ok).
Proof. intros e. apply (gen_val e 8). Qed.
Lemma gen_any : forall A (f : rd A), (forall b, exists r, f b = Done r) -> gen f (silent (fun _ => True)).
Proof.
  intros A f H b. destruct (H b) as [r Hr]. exists [], r. split; [exact Hr|].
  destruct r as [[a rest]|e]; [split; [reflexivity|exact I]|exact I].
Qed.

Lemma gen_for : forall A (f : nat -> rd unit) (ev : nat -> A -> list event) (R : list event -> list event -> Prop)
    (ok : A -> Prop) n i,
  (forall l1 l2 l1' l2', R l1 l1' -> R l2 l2' -> R (l1 ++ l2) (l1' ++ l2')) -> R [] [] ->
  (forall k, gen (f k) (fun l _ => exists a, ok a /\ R l (ev k a))) ->
  gen (rfor f n i) (fun l _ => exists xs, length xs = n /\ Forall ok xs /\ R l (flat_mapi ev i xs)).
Proof.
  intros A f ev R ok n i Happ Hnil Hf. revert i.
  induction n as [|n IH]; intros i; cbn [rfor].
  - apply gen_ret. exists []. repeat split; [constructor|exact Hnil].
  - eapply gen_bind; [apply Hf|]. intros l [] (a & Ha & Hl).
    eapply gen_mono; [apply IH|]. intros l' [] (xs & Hn & Hxs & Hl').
    exists (a :: xs). cbn [length flat_mapi]. repeat split; [lia|constructor; assumption|].
    apply Happ; assumption.
Qed.

(** an ordinate of a packed position: a sum; m is stored in full *)
Definition summed (c : coord) : Prop :=
  (exists a b, cx c = f64_add a b) /\ (exists a b, cy c = f64_add a b) /\
  match cz c with Some z => exists a b, z = f64_add a b | None => True end /\ of64_ok (cm c).
Lemma gen_coord_any : forall b i, gen (read_coord_as b i) (silent (fun c => of64_ok (snd c))).
Proof.
  intros b i. unfold read_coord_as. cbv zeta.
  assert (O : gen (if b then rmap f32_to_f64 (r_f32 (i_endian i)) else r_f64 (i_endian i)) (silent (fun _ => True))).
  { destruct b; unfold r_f64, r_f32.
    - eapply gen_map with (P := silent (fun _ => True)); [|intros l a [-> _]; split; [reflexivity|exact I]].
      eapply gen_map; [apply gen_take|]. intros l a [-> _]. split; [reflexivity|exact I].
    - eapply gen_map; [apply gen_take|]. intros l a [-> _]. split; [reflexivity|exact I]. }
  eapply gen_silent; [exact O|]. intros x _. eapply gen_silent; [exact O|]. intros y _.
  eapply gen_silent with (R := fun _ => True).
  { destruct (i_z i); [|apply gen_ret; split; [reflexivity|exact I]].
    eapply gen_map; [exact O|]. intros l a [-> _]. split; [reflexivity|exact I]. }
  intros z _. eapply gen_silent with (R := of64_ok).
  { destruct (i_m i); [|apply gen_ret; split; [reflexivity|exact I]].
    eapply gen_map; [apply gen_f64|]. intros l a [-> Ha]. split; [reflexivity|exact Ha]. }
  intros m Hm. apply gen_ret. split; [reflexivity|exact Hm].
Qed.

Section Shape.
  Variable multi : bool.
  (** [same]: how the callbacks of a line of the input relate to those of the line; equality unless
      lines are packed.  [C]: what is said about positions. *)
  Variable same : list event -> list event -> Prop.
  Variable C : coord -> Prop.
  Variable packed : Prop.
  Hypothesis same_refl : forall l, same l l.
  Hypothesis same_app : forall l1 l2 l1' l2', same l1 l1' -> same l2 l2' -> same (l1 ++ l2) (l1' ++ l2').
  Hypothesis C64 : forall c, coord64 c -> C c.
  Hypothesis packed_C : packed -> forall c, summed c -> C c.
  Hypothesis packed_many : packed -> forall t k c0 cs cl,
    same (LineStringBegin t (2 + length cs) k :: mapi (ev_coord multi) 0 (c0 :: cs) ++
          [ev_coord multi (2 + length cs) cl; LineStringEnd t k]) (ev_line multi t k (c0 :: cs ++ [cl])).
  Hypothesis packed_one : packed -> forall t k c c',
    same [LineStringBegin t 1 k; ev_coord multi 0 c; ev_coord multi 1 c'; LineStringEnd t k] (ev_line multi t k [c]).
  Definition plain (i : info) : Prop := i_compressed i = true -> packed.

  Lemma same_cons : forall e l l', same l l' -> same (e :: l) (e :: l').
  Proof. intros. apply (same_app [e] l [e] l'); [apply same_refl|assumption]. Qed.

  Definition raw_ok (c : rawcoord) : Prop :=
    let '(x, y, z, m) := c in coord64 (mkC x y z m).

  Lemma gen_coord_as : forall i, gen (read_coord_as false i) (silent raw_ok).
  Proof.
    intros i. unfold read_coord_as. cbv zeta.
    eapply gen_silent; [apply gen_f64|]. intros x Hx.
    eapply gen_silent; [apply gen_f64|]. intros y Hy.
    eapply gen_silent with (R := of64_ok).
    { destruct (i_z i); [|apply gen_ret; split; [reflexivity|exact I]].
      eapply gen_map; [apply gen_f64|]. intros l a [-> Ha]. split; [reflexivity|exact Ha]. }
    intros z Hz. eapply gen_silent with (R := of64_ok).
    { destruct (i_m i); [|apply gen_ret; split; [reflexivity|exact I]].
      eapply gen_map; [apply gen_f64|]. intros l a [-> Ha]. split; [reflexivity|exact Ha]. }
    intros m Hm. apply gen_ret. split; [reflexivity|]. repeat split; assumption.
  Qed.

  Definition cd (c : rawcoord) : coord := let '(x, y, z, m) := c in mkC x y z m.

  Lemma gen_emit : forall k c, gen (emit_coord multi k c) (fun l _ => l = [ev_coord multi k (cd c)]).
  Proof.
    intros k [[[x y] z] m]. unfold emit_coord. eapply gen_bind.
    - apply gen_call with (P := fun l _ => l = [ev_coord multi k (mkC x y z m)]). reflexivity.
    - intros l [] ->. apply gen_ret. reflexivity.
  Qed.

  Lemma gen_coord : forall i k, gen (process_coord multi i k)
    (fun l _ => exists c, C c /\ same l [ev_coord multi k c]).
  Proof.
    intros i k. eapply gen_silent; [apply gen_coord_as|]. intros c Hc.
    eapply gen_mono; [apply gen_emit|]. intros l a ->. exists (cd c).
    split; [|apply same_refl]. apply C64. destruct c as [[[x y] z] m]. exact Hc.
  Qed.

  Lemma gen_coords : forall i n, gen (process_coords multi i n)
    (fun l _ => exists xs, length xs = n /\ Forall C xs /\ same l (ev_coords multi xs)).
  Proof.
    intros i n. eapply gen_mono.
    - apply (gen_for coord _ (fun k c => [ev_coord multi k c]) same C); try exact same_app; try apply same_refl.
      intros k. eapply gen_bind; [apply gen_coord|]. intros l a H. apply gen_ret.
      rewrite app_nil_r. exact H.
    - intros l [] (xs & H1 & H2 & H3). exists xs. unfold ev_coords. rewrite mapi_flat. auto.
  Qed.

  (** the positions of a packed line between the first and the last *)
  Lemma gen_packed_coord : forall i k c, gen (process_compressed_coord multi i k c)
    (fun l _ => exists a, summed a /\ l = [ev_coord multi k a]).
  Proof.
    intros i k [[[px py] pz] pm]. unfold process_compressed_coord.
    eapply gen_silent; [apply gen_coord_any|].
    intros [[[x y] z] m] Hm. cbn [snd] in Hm. destruct multi; cbv zeta.
    - eapply gen_bind; [apply gen_call with (P := fun l _ => exists a, summed a /\ l = [ev_coord true k a])|].
      + exists (mkC (f64_add px x) (f64_add py y) (opt_zip_add pz z) m). split; [|reflexivity].
        split; [cbn; eauto|]. split; [cbn; eauto|]. split; [|exact Hm].
        cbn [cz]. destruct pz, z; cbn; eauto.
      + intros l [] H. apply gen_ret. rewrite app_nil_r. exact H.
    - eapply gen_bind; [apply gen_call with (P := fun l _ => exists a, summed a /\ l = [ev_coord false k a])|].
      + exists (mkC (f64_add px x) (f64_add py y) None None). split; [|reflexivity]. repeat split; cbn; eauto.
      + intros l [] H. apply gen_ret. rewrite app_nil_r. exact H.
  Qed.
  Lemma gen_packed_loop : forall i n k c, gen (compressed_loop multi i n k c)
    (fun l _ => exists cs, length cs = n /\ Forall summed cs /\ l = mapi (ev_coord multi) k cs).
  Proof.
    induction n as [|n IH]; intros k c; cbn [compressed_loop].
    - apply gen_ret. exists []. repeat split. constructor.
    - eapply gen_bind; [apply gen_packed_coord|]. intros l a (c1 & H1 & ->).
      eapply gen_mono; [apply IH|]. intros l' a' (cs & Hn & Hs & ->). exists (c1 :: cs).
      cbn [length mapi app]. split; [lia|]. split; [constructor; assumption|reflexivity].
  Qed.
  Lemma gen_one : forall i k, gen (process_coord multi i k) (fun l _ => exists c, C c /\ l = [ev_coord multi k c]).
  Proof.
    intros i k. eapply gen_silent; [apply gen_coord_as|]. intros c Hc.
    eapply gen_mono; [apply gen_emit|]. intros l a ->. exists (cd c). split; [|reflexivity].
    apply C64. destruct c as [[[x y] z] m]. exact Hc.
  Qed.

  Notation cnt := (fun n : nat => N.of_nat n < 2 ^ 32)%N.
  Notation ok_line := (on_line C cnt).
  Notation ok_rings := (on_rings C cnt).

  (** count, begin, body, end *)
  Lemma gen_container : forall A (b : nat -> event) en e (mid : nat -> rd unit)
      (ev : list A -> list event) (okl : list A -> Prop) (Q : list A -> list event -> Prop),
    (forall n, gen (mid n) (fun l _ => exists xs, length xs = n /\ okl xs /\ same l (ev xs))) ->
    gen (k <- r_u32 e ;; rcall (b (N.to_nat k)) ;;; mid (N.to_nat k) ;;; rcall en)
        (fun l _ => exists xs, cnt (length xs) /\ okl xs /\ same l (b (length xs) :: ev xs ++ [en])).
  Proof.
    intros A b en e mid ev okl Q Hmid.
    eapply gen_silent; [apply gen_u32|]. intros k Hk.
    eapply gen_bind; [apply gen_call with (P := fun l _ => l = [b (N.to_nat k)]); reflexivity|].
    intros l [] ->. eapply gen_bind; [apply Hmid|]. intros l [] (xs & H1 & H2 & H3).
    apply gen_call. exists xs. split; [rewrite H1, N2Nat.id; exact Hk|]. split; [exact H2|].
    rewrite H1. cbn [app]. apply same_cons, same_app; [exact H3|apply same_refl].
  Qed.

  Lemma gen_members : forall A (b : nat -> event) en e (f : nat -> rd unit)
      (ev : nat -> A -> list event) (ok : A -> Prop),
    (forall k, gen (f k) (fun l _ => exists a, ok a /\ same l (ev k a))) ->
    gen (k <- r_u32 e ;; rcall (b (N.to_nat k)) ;;; rfor f (N.to_nat k) 0 ;;; rcall en)
        (fun l _ => exists xs, cnt (length xs) /\ Forall ok xs /\
                    same l (b (length xs) :: flat_mapi ev 0 xs ++ [en])).
  Proof.
    intros A b en e f ev ok Hf.
    apply (gen_container A b en e (fun n => rfor f n 0) (flat_mapi ev 0) (Forall ok) (fun _ _ => True)).
    intros n. apply gen_for; [exact same_app|apply same_refl|exact Hf].
  Qed.

  Lemma gen_linestring : forall i t k, plain i -> gen (process_linestring multi i t k)
    (fun l _ => exists a, ok_line a /\ same l (ev_line multi t k a)).
  Proof.
    intros i t k Hp. destruct (i_compressed i) eqn:Hc.
    - pose proof (Hp Hc) as P. unfold process_linestring. rewrite Hc. cbn [andb].
      eapply gen_silent; [apply gen_u32|]. intros n Hn. cbv zeta.
      eapply gen_bind; [apply gen_call with (P := fun l _ => l = [LineStringBegin t (N.to_nat n) k]); reflexivity|].
      intros l [] ->. remember (N.to_nat n) as j eqn:Ej.
      assert (Hj : cnt j) by (subst j; rewrite N2Nat.id; exact Hn).
      destruct j as [|[|j]].
      + change (Nat.ltb 0 0) with false. cbv iota.
        eapply gen_bind; [apply gen_coords|]. intros l [] (xs & Hx & _ & Hl). destruct xs; [|discriminate Hx].
        apply gen_call. exists []. split; [split; [exact Hj|constructor]|].
        apply (same_app [_] (l ++ [_]) [_] ([] ++ [_])); [apply same_refl|].
        apply same_app; [exact Hl|apply same_refl].
      + change (Nat.ltb 0 1) with true. cbv iota. change (1 - 2) with 0. cbn [compressed_loop].
        eapply gen_bind with (P := fun l _ => exists c c', C c /\ l = [ev_coord multi 0 c; ev_coord multi 1 c']).
        * eapply gen_bind; [apply gen_one|]. intros l a (c & Hc0 & ->).
          eapply gen_bind with (P := fun l _ => l = []); [apply gen_ret; reflexivity|]. intros l a0 ->.
          eapply gen_bind; [apply gen_one|]. intros l a1 (c' & _ & ->). apply gen_ret. exists c, c'. split; [exact Hc0|reflexivity].
        * intros l [] (c & c' & Hc0 & ->). apply gen_call. exists [c]. split; [split; [exact Hj|repeat constructor; exact Hc0]|].
          exact (packed_one P t k c c').
      + change (Nat.ltb 0 (S (S j))) with true. cbv iota. replace (S (S j) - 2) with j by lia.
        eapply gen_bind with (P := fun l _ => exists c0 cs cl, length cs = j /\ Forall C (c0 :: cs ++ [cl]) /\
          l = mapi (ev_coord multi) 0 (c0 :: cs) ++ [ev_coord multi (2 + length cs) cl]).
        * eapply gen_bind; [apply gen_one|]. intros l a (c0 & H0 & ->).
          eapply gen_bind; [apply gen_packed_loop|]. intros l a0 (cs & Hcs & Hsum & ->).
          eapply gen_bind; [apply gen_one|]. intros l a1 (cl & Hcl & ->). apply gen_ret. exists c0, cs, cl.
          split; [exact Hcs|]. split.
          { constructor; [exact H0|]. apply Forall_app. split; [|repeat constructor; exact Hcl].
            revert Hsum. apply Forall_impl. exact (packed_C P). }
          rewrite Hcs. cbn [mapi app]. reflexivity.
        * intros l [] (c0 & cs & cl & Hcs & Hall & ->). apply gen_call. exists (c0 :: cs ++ [cl]).
          split; [split; [|exact Hall]|].
          -- cbn [length]. rewrite app_length. cbn [length]. replace (S (length cs + 1)) with (S (S j)) by lia. exact Hj.
          -- pose proof (packed_many P t k c0 cs cl) as H. rewrite Hcs in *.
             cbn [app]. rewrite <- app_assoc. exact H.
    - eapply gen_mono.
      + unfold process_linestring. rewrite Hc. cbn [andb].
        apply (gen_container coord (fun s => LineStringBegin t s k) (LineStringEnd t k) _
          (process_coords multi i) (ev_coords multi) (Forall C) (fun _ _ => True)). apply gen_coords.
      + intros l [] (xs & H1 & H2 & H3). exists xs. split; [split; assumption|exact H3].
  Qed.

  Lemma gen_circular : forall i k, gen (process_circularstring multi i k)
    (fun l _ => exists a, ok_line a /\ same l (ev_arc multi k a)).
  Proof.
    intros i k. eapply gen_mono.
    - apply (gen_container coord (fun s => CircularStringBegin s k) (CircularStringEnd k) _ _
               (ev_coords multi) (Forall C) (fun _ _ => True)). apply gen_coords.
    - intros l [] (xs & H1 & H2 & H3). exists xs. split; [split; assumption|exact H3].
  Qed.

  Lemma gen_polygon : forall i t k, plain i -> gen (process_polygon multi i t k)
    (fun l _ => exists a, ok_rings a /\ same l (ev_polygon multi t k a)).
  Proof.
    intros i t k Hp. eapply gen_mono.
    - apply (gen_members line (fun s => PolygonBegin t s k) (PolygonEnd t k) _ _
               (ev_line multi false) ok_line). intros. apply gen_linestring. exact Hp.
    - intros l [] (xs & H1 & H2 & H3). exists xs. split; [split; assumption|exact H3].
  Qed.

  Lemma gen_triangle : forall i t k, plain i -> gen (process_triangle multi i t k)
    (fun l _ => exists a, ok_rings a /\ same l (ev_triangle multi t k a)).
  Proof.
    intros i t k Hp. eapply gen_mono.
    - apply (gen_members line (fun s => TriangleBegin t s k) (TriangleEnd t k) _ _
               (ev_line multi false) ok_line). intros. apply gen_linestring. exact Hp.
    - intros l [] (xs & H1 & H2 & H3). exists xs. split; [split; assumption|exact H3].
  Qed.

  Variable rh : info -> rd info.
  Hypothesis Hrh : forall i, gen (rh i) (silent plain).

  Notation ok_segment := (on_segment C cnt).
  Notation ok_curve := (on_curve C cnt).
  Notation ok_surface := (on_surface C cnt).
  Notation ok_geom := (on_geom True (fun c => all_nanb c = false) C cnt).

  Ltac wrap x := intros l [] (a & H1 & H2); exists (x a); split; [exact H1|exact H2].

  Lemma gen_compound : forall i k d, gen (process_compoundcurve multi rh i k d)
    (fun l _ => exists a, (cnt (length a) /\ Forall ok_segment a) /\ same l (ev_compound multi k a) /\ d <= 128).
  Proof.
    intros i k d. unfold process_compoundcurve.
    destruct (Nat.ltb_spec max_nesting_depth d) as [|Hd]; [apply gen_fail|]. unfold max_nesting_depth in Hd.
    eapply gen_mono.
    - apply (gen_members segment (fun s => CompoundCurveBegin s k) (CompoundCurveEnd k) _ _
               (ev_segment multi) ok_segment).
      intros j. eapply gen_silent; [apply Hrh|]. intros ci Hci.
      destruct (i_type ci); try apply gen_fail.
      + eapply gen_mono; [apply gen_linestring; exact Hci|]. wrap SegLine.
      + eapply gen_mono; [apply gen_circular|]. wrap SegArc.
    - intros l [] (xs & H1 & H2 & H3). exists xs. split; [split; assumption|]. split; [exact H3|exact Hd].
  Qed.

  Lemma gen_curve : forall i k d, gen (process_curve multi rh i k d)
    (fun l _ => exists a, (ok_curve a /\ (curve_levels a = 0 \/ d + 1 <= 128 /\ curve_levels a = 2)) /\ same l (ev_curve multi k a)).
  Proof.
    intros i k d. unfold process_curve. eapply gen_silent; [apply Hrh|]. intros ci Hci.
    destruct (i_type ci); try apply gen_fail.
    - eapply gen_mono; [apply gen_linestring; exact Hci|]. intros l [] (a & H1 & H2); exists (CvLine a); split; [split; [exact H1|left; reflexivity]|exact H2].
    - eapply gen_mono; [apply gen_circular|]. intros l [] (a & H1 & H2); exists (CvArc a); split; [split; [exact H1|left; reflexivity]|exact H2].
    - eapply gen_mono; [apply gen_compound|]. intros l [] (a & H1 & H2 & H3); exists (CvCompound a);
      split; [split; [exact H1|right; split; [exact H3|reflexivity]]|exact H2].
  Qed.

  Lemma max_of_le : forall A (f : A -> nat) n l, Forall (fun a => f a <= n) l -> max_of f l <= n.
  Proof. intros A f n l H. induction H; cbn [max_of fold_right]; [lia|]. unfold max_of in IHForall. lia. Qed.
  Lemma Forall_and : forall A (P Q : A -> Prop) l, Forall (fun a => P a /\ Q a) l -> Forall P l /\ Forall Q l.
  Proof. intros A P Q l H. split; (eapply Forall_impl; [|exact H]); intros a [Ha Hb]; assumption. Qed.

  Lemma gen_curvepolygon : forall i k d, gen (process_curvepolygon multi rh i k d)
    (fun l _ => exists a, (cnt (length a) /\ Forall ok_curve a) /\ same l (ev_curvepolygon multi k a) /\
       d + max_of curve_levels a <= 128).
  Proof.
    intros i k d. unfold process_curvepolygon.
    destruct (Nat.ltb_spec max_nesting_depth d) as [|Hd]; [apply gen_fail|]. unfold max_nesting_depth in Hd.
    eapply gen_mono.
    - apply (gen_members curve (fun s => CurvePolygonBegin s k) (CurvePolygonEnd k) _ _
               (ev_curve multi)
               (fun a => ok_curve a /\ (curve_levels a = 0 \/ d + 1 + 1 <= 128 /\ curve_levels a = 2))). intros. apply gen_curve.
    - intros l [] (xs & H1 & H2 & H3). apply Forall_and in H2. destruct H2 as [H2 H4].
      exists xs. split; [split; assumption|]. split; [exact H3|].
      enough (max_of curve_levels xs <= 128 - d) by lia. apply max_of_le.
      eapply Forall_impl; [|exact H4]. intros a Ha. cbn beta in Ha. lia.
  Qed.

  Lemma below : forall d, d <= 128 -> d + 0 <= 128.
  Proof. intros. lia. Qed.
  Ltac wrapd x := intros l [] (a & H1 & H2); exists (x a); split; [split; [exact H1|apply below; assumption]|exact H2].
  Ltac memd x := intros l [] (a & H1 & H2 & H3); exists (x a);
    split; [split; [split; assumption|apply below; assumption]|exact H3].

  Lemma gen_geom : forall fuel i k d, plain i -> gen (process_geom_n fuel multi rh i k d)
    (fun l _ => exists g, (ok_geom g /\ d + levels g <= 128) /\ same l (gevents multi k g)).
  Proof.
    induction fuel as [|fuel IH]; intros i k d Hp; cbn [process_geom_n]; [apply gen_fail|].
    destruct (Nat.ltb_spec max_nesting_depth d) as [|Hd]; [apply gen_fail|]. unfold max_nesting_depth in Hd.
    destruct (i_type i); try apply gen_fail.
    - eapply gen_silent; [apply gen_coord_as|]. intros [[[x y] z] m] Hc.
      destruct (_ && _) eqn:Hn.
      + apply gen_call. exists GEmptyPoint. split; [split; [exact I|exact (below _ Hd)]|apply same_refl].
      + eapply gen_bind; [apply gen_call with (P := fun l _ => l = [PointBegin k]); reflexivity|].
        intros l [] ->. eapply gen_bind; [apply gen_emit|]. intros l a ->. apply gen_call.
        exists (GPoint (mkC x y z m)). split; [split; [split; [apply C64; exact Hc|exact Hn]|exact (below _ Hd)]|apply same_refl].
    - eapply gen_mono; [apply gen_linestring; exact Hp|]. wrapd GLineString.
    - eapply gen_mono; [apply gen_polygon; exact Hp|]. wrapd GPolygon.
    - eapply gen_mono.
      + apply (gen_members coord (fun s => MultiPointBegin s k) (MultiPointEnd k) _ _
                 (fun j c => [ev_coord multi j c]) C).
        intros j. eapply gen_silent; [apply Hrh|]. intros ci Hci.
        eapply gen_bind; [apply gen_coord|]. intros l a H. apply gen_ret. rewrite app_nil_r. exact H.
      + intros l [] (xs & H1 & H2 & H3). exists (GMultiPoint xs). split; [split; [split; assumption|exact (below _ Hd)]|].
        cbn [gevents]. unfold ev_coords. rewrite mapi_flat. exact H3.
    - eapply gen_mono.
      + apply (gen_members line (fun s => MultiLineStringBegin s k) (MultiLineStringEnd k) _ _
                 (ev_line multi false) ok_line).
        intros j. eapply gen_silent; [apply Hrh|]. intros; apply gen_linestring; assumption.
      + memd GMultiLineString.
    - eapply gen_mono.
      + apply (gen_members rings (fun s => MultiPolygonBegin s k) (MultiPolygonEnd k) _ _
                 (ev_polygon multi false) ok_rings).
        intros j. eapply gen_silent; [apply Hrh|]. intros; apply gen_polygon; assumption.
      + memd GMultiPolygon.
    - eapply gen_mono.
      + apply (gen_members geom (fun s => CollectionBegin s k) (CollectionEnd k) _ _
                 (gevents multi) (fun g => ok_geom g /\ d + 1 + levels g <= 128)).
        intros j. eapply gen_silent; [apply Hrh|]. intros; apply IH; assumption.
      + intros l [] (xs & H1 & H2 & H3). apply Forall_and in H2. destruct H2 as [H2 H4].
        exists (GCollection xs). split; [split|].
        * apply on_geom_collection. split; assumption.
        * rewrite levels_collection. enough (max_of (fun g => S (levels g)) xs <= 128 - d) by lia.
          apply max_of_le. eapply Forall_impl; [|exact H4]. intros a Ha. cbn beta in Ha. lia.
        * rewrite gevents_collection. exact H3.
    - eapply gen_mono; [apply gen_circular|]. wrapd GCircularString.
    - eapply gen_mono; [apply gen_compound|]. intros l [] (a & H1 & H2 & H3). exists (GCompoundCurve a).
      split; [split; [exact H1|cbn [levels]; lia]|exact H2].
    - eapply gen_mono; [apply gen_curvepolygon|]. intros l [] (a & H1 & H2 & H3). exists (GCurvePolygon a).
      split; [split; [exact H1|cbn [levels]; lia]|exact H2].
    - eapply gen_mono.
      + apply (gen_members curve (fun s => MultiCurveBegin s k) (MultiCurveEnd k) _ _
                 (ev_curve multi)
               (fun a => ok_curve a /\ (curve_levels a = 0 \/ d + 1 + 1 <= 128 /\ curve_levels a = 2))). intros; apply gen_curve.
      + intros l [] (xs & H1 & H2 & H3). apply Forall_and in H2. destruct H2 as [H2 H4].
        exists (GMultiCurve xs). split; [split; [split; assumption|]|exact H3]. cbn [levels].
        enough (max_of curve_levels xs <= 128 - d) by lia. apply max_of_le.
        eapply Forall_impl; [|exact H4]. intros a Ha. cbn beta in Ha. lia.
    - eapply gen_mono.
      + apply (gen_members surface (fun s => MultiSurfaceBegin s k) (MultiSurfaceEnd k) _ _
                 (ev_surface multi) (fun a => ok_surface a /\ d + surface_levels a <= 128)).
        intros j. eapply gen_silent; [apply Hrh|]. intros ci Hci.
        destruct (i_type ci); try apply gen_fail.
        * eapply gen_mono; [apply gen_polygon; exact Hci|]. intros l [] (a & H1 & H2). exists (SfPolygon a).
          split; [split; [exact H1|exact (below _ Hd)]|exact H2].
        * eapply gen_mono; [apply gen_curvepolygon|]. intros l [] (a & H1 & H2 & H3). exists (SfCurvePolygon a).
          split; [split; [exact H1|cbn [surface_levels]; lia]|exact H2].
      + intros l [] (xs & H1 & H2 & H3). apply Forall_and in H2. destruct H2 as [H2 H4].
        exists (GMultiSurface xs). split; [split; [split; assumption|]|exact H3]. cbn [levels].
        enough (max_of surface_levels xs <= 128 - d) by lia. apply max_of_le.
        eapply Forall_impl; [|exact H4]. intros a Ha. cbn beta in Ha. lia.
    - eapply gen_mono.
      + apply (gen_members rings (fun s => PolyhedralSurfaceBegin s k) (PolyhedralSurfaceEnd k) _ _
                 (ev_polygon multi false) ok_rings).
        intros j. eapply gen_silent; [apply Hrh|]. intros; apply gen_polygon; assumption.
      + memd GPolyhedralSurface.
    - eapply gen_mono.
      + apply (gen_members rings (fun s => TinBegin s k) (TinEnd k) _ _
                 (ev_triangle multi false) ok_rings).
        intros j. eapply gen_silent; [apply Hrh|]. intros; apply gen_triangle; assumption.
      + memd GTin.
    - eapply gen_mono; [apply gen_triangle; exact Hp|]. wrapd GTriangle.
  Qed.
End Shape.

(** headers of the dialects without compression *)
Definition nocomp (i : info) : Prop := i_compressed i = false.

Lemma silent_i32 : forall e b, exists r, r_i32 e b = Done r.
Proof.
  intros e b. unfold r_i32, r_u32, rmap, rbind. destruct (take_lin 4 b) as [[[a r]|x] H]; rewrite H;
    cbn; eexists; reflexivity.
Qed.

Lemma gen_u8 : gen r_u8 (silent (fun _ => True)).
Proof.
  eapply gen_map; [apply gen_take|]. intros l a [-> _]. split; [reflexivity|exact I].
Qed.
Lemma gen_i32 : forall e, gen (r_i32 e) (silent (fun _ => True)).
Proof. intros. apply gen_any, silent_i32. Qed.
Lemma gen_f64s : forall e n, gen (r_f64s e n) (silent (fun _ => True)).
Proof.
  induction n as [|n IH]; cbn [r_f64s]; [apply gen_ret; split; [reflexivity|exact I]|].
  eapply gen_silent; [apply gen_f64|]. intros x _. eapply gen_silent; [apply IH|]. intros l _.
  apply gen_ret. split; [reflexivity|exact I].
Qed.

Ltac done_ret := apply gen_ret; split; [reflexivity|try exact I; try reflexivity].

Lemma gen_wkb_header : gen read_wkb_header (silent nocomp).
Proof.
  unfold read_wkb_header. eapply gen_silent; [apply gen_u8|]. intros x _. cbv zeta.
  eapply gen_silent; [apply gen_u32|]. intros y _. done_ret.
Qed.
Lemma gen_ewkb_header : gen read_ewkb_header (silent nocomp).
Proof.
  unfold read_ewkb_header. eapply gen_silent; [apply gen_u8|]. intros x _. cbv zeta.
  eapply gen_silent; [apply gen_u32|]. intros y _.
  eapply gen_silent with (R := fun _ => True).
  - destruct (has_flag _ _); [|done_ret]. eapply gen_map; [apply gen_i32|].
    intros l a [-> _]. split; [reflexivity|exact I].
  - intros s _. done_ret.
Qed.

Lemma gen_header : forall dl, dl <> SpatiaLite -> gen (read_header dl) (silent nocomp).
Proof.
  intros [] H; cbn [read_header]; try congruence.
  - apply gen_wkb_header.
  - apply gen_ewkb_header.
  - unfold read_gpkg_header. do 2 (eapply gen_silent; [apply gen_u8|]; intros ? _).
    destruct (negb _); [apply gen_fail|].
    do 2 (eapply gen_silent; [apply gen_u8|]; intros ? _).
    destruct (gpkg_env_len _); [|apply gen_fail]. cbv zeta.
    eapply gen_silent; [apply gen_i32|]. intros ? _.
    eapply gen_silent; [apply gen_f64s|]. intros ? _.
    eapply gen_silent; [apply gen_wkb_header|]. intros ? _. done_ret.
  - unfold read_mysql_header. eapply gen_silent; [apply gen_u32|]. intros s _.
    destruct (_ <=? _)%N; [apply gen_fail|].
    eapply gen_silent; [apply gen_wkb_header|]. intros i Hi.
    destruct (negb _); [apply gen_fail|]. done_ret. exact Hi.
Qed.

Lemma gen_header_any : forall dl, gen (read_header dl) (silent (fun _ => True)).
Proof.
  intros dl. destruct dl eqn:E;
    try (eapply gen_mono; [apply gen_header; discriminate|intros l a [-> _]; split; [reflexivity|exact I]]).
  cbn [read_header]. unfold read_spatialite_header.
  eapply gen_silent; [apply gen_u8|]. intros st _. destruct (negb _); [apply gen_fail|].
  eapply gen_silent; [apply gen_u8|]. intros fl _. cbv zeta.
  eapply gen_silent; [apply gen_i32|]. intros s _.
  destruct (negb _).
  - eapply gen_silent; [apply gen_u8|]. intros; done_ret.
  - eapply gen_silent; [apply gen_f64s|]. intros en _.
    eapply gen_silent; [apply gen_u8|]. intros me _. destruct (negb _); [apply gen_fail|].
    eapply gen_silent; [apply gen_u32|]. intros; done_ret.
Qed.

Lemma gen_nested : forall dl i, dl <> SpatiaLite -> gen (nested_header dl i) (silent nocomp).
Proof.
  intros [] i H; cbn [nested_header]; try congruence; try apply gen_wkb_header; apply gen_ewkb_header.
Qed.
Lemma gen_nested_any : forall dl i, gen (nested_header dl i) (silent (fun _ => True)).
Proof.
  intros dl i. destruct dl eqn:E;
    try (eapply gen_mono; [apply gen_nested; discriminate|intros l a [-> _]; split; [reflexivity|exact I]]).
  cbn [nested_header]. unfold read_spatialite_nested_header.
  eapply gen_silent; [apply gen_u8|]. intros st _. destruct (negb _); [apply gen_fail|].
  eapply gen_silent; [apply gen_u32|]. intros; done_ret.
Qed.

(** what an accepted encoding is read as: its points are not empty ones *)
Definition decoded (g : geom) : Prop :=
  on_geom True (fun c => all_nanb c = false) coord64 (fun n => N.of_nat n < 2 ^ 32)%N g.
Lemma on_geom_points : forall E (T T' P : coord -> Prop) Q, (forall c, T c -> T' c) ->
  forall g, on_geom E T P Q g -> on_geom E T' P Q g.
Proof.
  intros E T T' P Q H g. induction g using geom_ind'; try exact (fun x => x).
  - intros [H1 H2]. split; auto.
  - rewrite !on_geom_collection. intros [H1 H2]. split; [exact H1|].
    clear H1. induction H0; inversion H2; subst; constructor; auto.
Qed.
Lemma decoded_encodable : forall g, decoded g -> encodable g.
Proof. apply on_geom_points. auto. Qed.

Lemma gen_process : forall dl d, dl <> SpatiaLite ->
  gen (process_wkb_type_geom dl d) (fun l _ => exists s g, (decoded g /\ levels g <= 128) /\
        l = Srid s :: gevents (multi_dim d) 0 g).
Proof.
  intros dl d H. unfold process_wkb_type_geom.
  eapply gen_silent; [apply gen_header; exact H|]. intros i Hi.
  eapply gen_bind; [apply gen_call with (P := fun l _ => l = [Srid (i_srid i)]); reflexivity|].
  intros l [] ->.
  assert (Hpl : forall i, nocomp i -> plain False i)
    by (intros j Hj Hj'; unfold nocomp in Hj; congruence).
  eapply gen_mono; [apply (gen_geom (multi_dim d) eq coord64 False)|]; try (intros []; fail); try congruence; auto.
  - intros j. eapply gen_mono; [apply gen_nested; exact H|]. intros l a [-> Ha].
    split; [reflexivity|auto].
  - intros l [] (g & Hg & ->). exists (i_srid i), g. split; [exact Hg|reflexivity].
Qed.

Lemma slips_refl : forall multi l, slips multi l l.
Proof. induction l; constructor; assumption. Qed.
Lemma slips_app : forall multi l1 l2 l1' l2', slips multi l1 l1' -> slips multi l2 l2' ->
  slips multi (l1 ++ l2) (l1' ++ l2').
Proof.
  intros multi l1 l2 l1' l2' H1 H2. induction H1; cbn [app].
  - exact H2.
  - constructor. assumption.
  - rewrite <- !app_assoc. cbn [app]. apply (slips_last multi t k c0 cs cl (l ++ l2) (l' ++ l2') IHslips).
  - rewrite <- app_assoc. apply (slips_single multi t k c c' (l ++ l2) (l' ++ l2') IHslips).
Qed.
Lemma gen_process_read : forall dl d,
  gen (process_wkb_type_geom dl d) (fun l _ => exists s g,
        (on_geom True (fun c => all_nanb c = false) (fun c => coord64 c \/ summed c) (fun n => N.of_nat n < 2 ^ 32)%N g /\ levels g <= 128) /\
        slips (multi_dim d) l (Srid s :: gevents (multi_dim d) 0 g)).
Proof.
  intros dl d. unfold process_wkb_type_geom.
  eapply gen_silent; [apply gen_header_any|]. intros i _.
  eapply gen_bind; [apply gen_call with (P := fun l _ => l = [Srid (i_srid i)]); reflexivity|].
  intros l [] ->.
  eapply gen_mono; [apply (gen_geom (multi_dim d) (slips (multi_dim d)) (fun c => coord64 c \/ summed c) True)|]; auto using slips_refl, slips_app.
  - intros _ t k c0 cs cl.
    rewrite <- (app_nil_r (ev_line _ _ _ _)). apply slips_last. constructor.
  - intros _ t k c c'. rewrite <- (app_nil_r (ev_line _ _ _ _)). apply slips_single. constructor.
  - intros j. eapply gen_mono; [apply gen_nested_any|]. intros l a [-> Ha].
    split; [reflexivity|]. intros _. exact I.
  - intros _. exact I.
  - intros l [] (g & [Hg Hl] & Hs). exists (i_srid i), g. split; [split; [|exact Hl]|].
    + exact Hg.
    + constructor. exact Hs.
Qed.
Lemma gen_process_any : forall dl d,
  gen (process_wkb_type_geom dl d) (fun l _ => exists s g, (counted g /\ levels g <= 128) /\
        slips (multi_dim d) l (Srid s :: gevents (multi_dim d) 0 g)).
Proof.
  intros dl d. unfold process_wkb_type_geom.
  eapply gen_silent; [apply gen_header_any|]. intros i _.
  eapply gen_bind; [apply gen_call with (P := fun l _ => l = [Srid (i_srid i)]); reflexivity|].
  intros l [] ->.
  eapply gen_mono; [apply (gen_geom (multi_dim d) (slips (multi_dim d)) (fun _ => True) True)|]; auto using slips_refl, slips_app.
  - intros _ t k c0 cs cl.
    rewrite <- (app_nil_r (ev_line _ _ _ _)). apply slips_last. constructor.
  - intros _ t k c c'. rewrite <- (app_nil_r (ev_line _ _ _ _)). apply slips_single. constructor.
  - intros j. eapply gen_mono; [apply gen_nested_any|]. intros l a [-> Ha].
    split; [reflexivity|]. intros _. exact I.
  - intros _. exact I.
  - intros l [] (g & [Hg Hl] & Hs). exists (i_srid i), g. split; [split; [|exact Hl]|].
    + revert Hg. apply on_geom_points. auto.
    + constructor. exact Hs.
Qed.
