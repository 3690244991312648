(** When exactly the reader of shapefile records panics (C40). *)
From Coq Require Import String Ascii.
From Coq Require Import List NArith ZArith Lia Bool ZifyBool ZifyNat ZifyN.
From Coq Require Import Init.Byte.
From Verif Require Import Base BaseLemmas Float Event EventLemmas Claims Geom FeatureSpec WkbModel WkbRead ShpModel ShpSpec ShpTop ShpSafe ShpMore ShpBound ShpPanicSpec.
Import ListNotations.
Local Open Scope nat_scope.
Local Open Scope list_scope.

(** ** Programs that end with success, or with a panic *)
Definition fine {A} (g : prog A) : Prop := exists l a, g = calls l (Done (Ok a)).
Definition dead {A} (g : prog A) : Prop := exists l, g = calls l (Done (Err EPanic)).

Lemma fine_call : forall e, fine (pcall e).
Proof. intros. exists [e], tt. reflexivity. Qed.
Lemma fine_ret : forall A (a : A), fine (pret a).
Proof. intros. now exists [], a. Qed.
Lemma fine_then : forall A (g : prog unit) (h : prog A), fine g -> fine h -> fine (pthen g h).
Proof.
  intros A g h [l1 [[] ->]] [l2 [a ->]]. exists (l1 ++ l2), a. unfold pthen.
  now rewrite pbind_calls, calls_app.
Qed.
Lemma dead_first : forall A B (g : prog A) (f : A -> prog B), dead g -> dead (pbind g f).
Proof. intros A B g f [l ->]. exists l. now rewrite pbind_calls. Qed.
Lemma dead_then : forall A (g : prog unit) (h : prog A), fine g -> dead h -> dead (pthen g h).
Proof.
  intros A g h [l1 [[] ->]] [l2 ->]. exists (l1 ++ l2). unfold pthen.
  now rewrite pbind_calls, calls_app.
Qed.
Lemma fine_for : forall A (f : nat -> A -> prog unit) l i,
  (forall k a, In a l -> fine (f k a)) -> fine (pfor f i l).
Proof.
  induction l as [|a l IH]; intros i H; cbn [pfor]; [apply fine_ret|].
  apply fine_then; [apply H; now left|]. apply IH. intros. apply H. now right.
Qed.
Lemma dead_for : forall A (f : nat -> A -> prog unit) l i a, In a l ->
  (forall k, dead (f k a)) -> (forall k c, In c l -> fine (f k c) \/ dead (f k c)) -> dead (pfor f i l).
Proof.
  induction l as [|x l IH]; intros i a Hin Ha H; [contradiction|]. cbn [pfor].
  destruct (H i x (or_introl eq_refl)) as [Hx|Hx]; [|now apply dead_first].
  destruct Hin as [->|Hin]; [now apply dead_first|].
  apply dead_then; [exact Hx|]. apply (IH _ a Hin Ha). intros. apply H. now right.
Qed.

(** ** Parts *)
Lemma emit_point_fine : forall multi gz gm coords zs ms ofs idx,
  (gz = true -> length zs = length coords) -> (gm = true -> length ms = length coords) ->
  ((ofs < N.of_nat (length coords))%N -> fine (emit_point multi gz gm coords zs ms ofs idx)) /\
  ((N.of_nat (length coords) <= ofs)%N -> dead (emit_point multi gz gm coords zs ms ofs idx)).
Proof.
  intros multi gz gm coords zs ms ofs idx Hz Hm. split.
  - intros Ho. unfold emit_point. destruct (at_index_ok _ coords ofs Ho) as [c ->]. cbn [plift pbind].
    destruct multi; [|apply fine_call].
    assert (Ez : exists z, (if gz then plift (res_map Some (at_index zs ofs)) else pret None) = Done (Ok z)).
    { destruct gz; [|eexists; reflexivity]. destruct (at_index_ok _ zs ofs) as [z ->]; [rewrite Hz; auto|].
      eexists; reflexivity. }
    destruct Ez as [z ->]. cbn [pbind].
    assert (Em : exists m, (if gm then plift (res_map Some (at_index ms ofs)) else pret None) = Done (Ok m)).
    { destruct gm; [|eexists; reflexivity]. destruct (at_index_ok _ ms ofs) as [m ->]; [rewrite Hm; auto|].
      eexists; reflexivity. }
    destruct Em as [m ->]. cbn [pbind]. apply fine_call.
  - intros Ho. unfold emit_point, at_index at 1.
    destruct (N.ltb_spec ofs (N.of_nat (length coords))); [lia|]. now exists [].
Qed.

Lemma emit_points_fine : forall multi gz gm coords zs ms start n idx,
  (gz = true -> length zs = length coords) -> (gm = true -> length ms = length coords) ->
  (start + N.of_nat (idx + n) <= N.of_nat (length coords))%N ->
  fine (emit_points multi gz gm coords zs ms start n idx).
Proof.
  intros multi gz gm coords zs ms start. induction n as [|n IH]; intros idx Hz Hm H; cbn [emit_points].
  - apply fine_ret.
  - apply fine_then; [apply emit_point_fine; auto; lia|]. apply IH; auto. lia.
Qed.
Lemma emit_points_dead : forall multi gz gm coords zs ms start n idx,
  (gz = true -> length zs = length coords) -> (gm = true -> length ms = length coords) ->
  0 < n -> (N.of_nat (length coords) < start + N.of_nat (idx + n))%N ->
  dead (emit_points multi gz gm coords zs ms start n idx).
Proof.
  intros multi gz gm coords zs ms start. induction n as [|n IH]; intros idx Hz Hm H0 H; [lia|]. cbn [emit_points].
  destruct (emit_point_fine multi gz gm coords zs ms (start + N.of_nat idx) idx Hz Hm) as [Hf Hd].
  destruct (N.ltb_spec (start + N.of_nat idx) (N.of_nat (length coords))) as [L|L].
  - apply dead_then; [auto|]. apply IH; auto; lia.
  - apply dead_first. auto.
Qed.

(** a part that is read without a panic *)
Definition calm (ck : bool) (n : nat) (w : N * N) : Prop :=
  (ck = true -> fst w <= snd w)%N /\ (fst w < snd w -> snd w <= N.of_nat n)%N.
Lemma calm_dec : forall ck n w, calm ck n w \/ ~ calm ck n w.
Proof.
  intros ck n [s e]. unfold calm. cbn [fst snd].
  destruct (N.leb_spec s e) as [H1|H1]; destruct (N.leb_spec e (N.of_nat n)) as [H2|H2];
    destruct ck; (left; split; intros; (exact H1 || exact H2 || lia || discriminate)) ||
    (destruct (N.ltb_spec s e);
      [right; intros [G1 G2]; specialize (G2 ltac:(assumption)); lia
      |(left; split; intros; (discriminate || lia)) || (right; intros [G1 G2]; specialize (G1 eq_refl); lia)]).
Qed.

Section Process.
  Variable ck : bool.
  Variable d : dims.
  Variable mp : multipart.
  Hypothesis Hz : mp_z mp = [] \/ length (mp_z mp) = length (mp_coords mp).
  Hypothesis Hm : mp_m mp = [] \/ length (mp_m mp) = length (mp_coords mp).
  Let multi := dz d || dm d.
  Let get_z := dz d && filled (mp_z mp).
  Let get_m := dm d && filled (mp_m mp).

  Lemma part_fine : forall i w, calm ck (length (mp_coords mp)) w ->
    fine (process_part ck multi get_z get_m mp i w).
  Proof.
    intros i [s e] [H1 H2]. cbn [fst snd] in *. unfold process_part.
    assert (Eu : exists n, usub ck e s = Ok n).
    { unfold usub. destruct (N.leb_spec s e); [eexists; reflexivity|]. destruct ck; [|eexists; reflexivity].
      specialize (H1 eq_refl). lia. }
    destruct Eu as [n ->]. cbn [plift pbind].
    apply fine_then; [apply fine_call|]. apply fine_then; [|apply fine_call].
    destruct (N.ltb_spec s e) as [L|L].
    - apply emit_points_fine; [now apply filled_ok|now apply filled_ok|]. specialize (H2 L). lia.
    - replace (N.to_nat (e - s)) with 0 by lia. apply fine_ret.
  Qed.
  Lemma part_dead : forall i w, ~ calm ck (length (mp_coords mp)) w ->
    dead (process_part ck multi get_z get_m mp i w).
  Proof.
    intros i [s e] H. unfold process_part, usub. destruct (N.leb_spec s e) as [L|L].
    - cbn [plift pbind]. apply dead_then; [apply fine_call|]. apply dead_first.
      assert (s < e /\ N.of_nat (length (mp_coords mp)) < e)%N as [L1 L2].
      { destruct (N.ltb_spec s e) as [G|G].
        - split; [exact G|]. destruct (N.leb_spec e (N.of_nat (length (mp_coords mp)))) as [K|K]; [|exact K].
          exfalso. apply H. split; cbn [fst snd]; intros; assumption.
        - exfalso. apply H. split; cbn [fst snd]; intros; [assumption|lia]. }
      apply emit_points_dead; [now apply filled_ok|now apply filled_ok|lia|lia].
    - destruct ck; [now exists []|]. exfalso. apply H. split; cbn [fst snd]; intros; [discriminate|lia].
  Qed.

  (** the parts [gs .. ge] of the table *)
  Lemma geom_part : forall as_poly gi gs ge, gs <= ge <= num_parts mp -> 0 < length (mp_parts mp) ->
    let ws := windows2 (firstn (S (ge - gs)) (skipn gs (mp_parts mp))) in
    (Forall (calm ck (length (mp_coords mp))) ws ->
       fine (process_geom_part ck multi get_z get_m as_poly mp gi (gs, ge))) /\
    (Exists (fun w => ~ calm ck (length (mp_coords mp)) w) ws ->
       dead (process_geom_part ck multi get_z get_m as_poly mp gi (gs, ge))).
  Proof.
    intros as_poly gi gs ge Hg Hp. unfold process_geom_part. rewrite usub_ok by lia. cbn [plift pbind].
    unfold slice. unfold num_parts in Hg.
    destruct (N.leb_spec (N.of_nat gs) (N.of_nat ge + 1)); [|lia].
    destruct (N.leb_spec (N.of_nat ge + 1) (N.of_nat (length (mp_parts mp)))); [|lia].
    cbn [andb plift pbind].
    replace (N.to_nat (N.of_nat ge + 1 - N.of_nat gs)) with (S (ge - gs)) by lia.
    rewrite Nat2N.id. cbv zeta. split; intros Hw.
    - apply fine_then; [destruct as_poly; [apply fine_call|apply fine_ret]|].
      apply fine_then; [|destruct as_poly; [apply fine_call|apply fine_ret]].
      apply fine_for. intros k w Hin. apply part_fine. exact (proj1 (Forall_forall _ _) Hw w Hin).
    - apply dead_then; [destruct as_poly; [apply fine_call|apply fine_ret]|].
      apply dead_first. apply Exists_exists in Hw as [w [Hin Hw]].
      apply (dead_for _ _ _ _ w Hin); [intros; now apply part_dead|].
      intros k c _. destruct (calm_dec ck (length (mp_coords mp)) c); [left; now apply part_fine|right; now apply part_dead].
  Qed.

  Lemma lines_process : 0 < length (mp_parts mp) ->
    (Forall (calm ck (length (mp_coords mp))) (windows2 (mp_parts mp)) -> fine (process_multipart ck d false mp)) /\
    (Exists (fun w => ~ calm ck (length (mp_coords mp)) w) (windows2 (mp_parts mp)) ->
       dead (process_multipart ck d false mp)).
  Proof.
    intros Hp. unfold process_multipart. cbn [pbind pret windows2 pfor].
    assert (Hn : 0 <= num_parts mp <= num_parts mp) by lia.
    pose proof (fun gi => geom_part false gi 0 (num_parts mp) Hn Hp) as H.
    cbv zeta in H. cbn [skipn] in H. rewrite Nat.sub_0_r in H.
    replace (firstn (S (num_parts mp)) (mp_parts mp)) with (mp_parts mp) in H.
    2: { symmetry. apply firstn_all2. unfold num_parts. lia. }
    fold multi get_z get_m. split; intros Hw.
    - apply fine_then; [apply fine_call|]. apply fine_then; [|apply fine_call].
      apply fine_then; [now apply H|]. apply fine_ret.
    - apply dead_then; [apply fine_call|]. apply dead_first. apply dead_first. now apply H.
  Qed.

  Lemma detect_dead : forall coords l idx, 0 < idx ->
    Exists (fun w => ~ bounded (length coords) w) l -> detect_loop coords l idx = Err EPanic.
  Proof.
    intros coords. induction l as [|[s e] l IH]; intros idx Hi H; [inversion H|]. cbn [detect_loop].
    destruct (Nat.eqb_spec idx 0); [lia|]. unfold slice.
    destruct ((s <=? e)%N && (e <=? N.of_nat (length coords))%N) eqn:E; [|reflexivity].
    cbn [res_map res_bind]. inversion H as [? ? H1|? ? H1]; subst.
    - exfalso. apply H1. apply andb_true_iff in E as [E1 E2]. apply N.leb_le in E1, E2. now split.
    - rewrite IH by (auto; lia). reflexivity.
  Qed.
  Lemma detect_fine : forall coords l idx, 0 < idx -> Forall (bounded (length coords)) l ->
    exists polys, detect_loop coords l idx = Ok polys /\
      (forall x, In x polys -> idx <= x < idx + length l) /\
      (forall g, In g (windows2 (polys ++ [idx + length l])) -> fst g <= snd g <= idx + length l).
  Proof. intros. now apply detect_loop_safe. Qed.

  Definition unbounded (w : N * N) : Prop := ~ bounded (length (mp_coords mp)) w.
  Lemma polygon_process : forall p0 rest, mp_parts mp = p0 :: rest ->
    (Exists unbounded (windows2 rest) -> dead (process_multipart ck d true mp)) /\
    (Forall (bounded (length (mp_coords mp))) (windows2 rest) ->
      (Forall (calm ck (length (mp_coords mp))) (windows2 (mp_parts mp)) -> fine (process_multipart ck d true mp)) /\
      (forall p1 r2, rest = p1 :: r2 -> ~ calm ck (length (mp_coords mp)) (p0, p1) ->
        dead (process_multipart ck d true mp))).
  Proof.
    intros p0 rest Ep. unfold process_multipart, detect_polys.
    assert (Hp : 0 < length (mp_parts mp)) by (rewrite Ep; cbn [length]; lia).
    destruct rest as [|p1 r2].
    { rewrite Ep. cbn [windows2 detect_loop res_map app]. unfold num_parts. rewrite Ep. cbn [length Nat.sub plift pbind windows2 pfor].
      split; [intros H; inversion H|]. intros _. split; [|intros ? ? H; discriminate].
      intros _. repeat apply fine_then; try apply fine_call. apply fine_ret. }
    rewrite Ep. change (windows2 (p0 :: p1 :: r2)) with ((p0, p1) :: windows2 (p1 :: r2)).
    set (ws := windows2 (p1 :: r2)). cbn [detect_loop Nat.eqb res_bind].
    split.
    - intros H. rewrite (detect_dead _ _ 1) by (auto; lia). cbn [res_map plift pbind]. now exists [].
    - intros H. destruct (detect_fine (mp_coords mp) ws 1 ltac:(lia) H) as [polys [E [Hin Hg]]].
      rewrite E. cbn [res_map plift pbind app].
      assert (Hn : num_parts mp = 1 + length ws).
      { unfold num_parts, ws. rewrite Ep, windows_length. cbn [length]. lia. }
      rewrite <- Hn in Hg, Hin.
      destruct (polys ++ [num_parts mp]) as [|g1 gs] eqn:Eg; [destruct polys; discriminate|].
      change (windows2 (0 :: g1 :: gs)) with ((0, g1) :: windows2 (g1 :: gs)).
      assert (Hg1 : 1 <= g1 <= num_parts mp).
      { assert (Hi : In g1 (polys ++ [num_parts mp])) by (rewrite Eg; now left).
        apply in_app_iff in Hi as [Hi|[<-|[]]]; [apply Hin in Hi; lia|lia]. }
      fold multi get_z get_m. split.
      + intros Hc. apply fine_then; [apply fine_call|]. apply fine_then; [|apply fine_call].
        apply fine_for. intros gi [a c] Hac.
        assert (Hr : a <= c <= num_parts mp).
        { destruct Hac as [Hac|Hac]; [injection Hac as <- <-; lia|apply (Hg _ Hac)]. }
        apply (proj1 (geom_part true gi a c Hr Hp)). apply Forall_forall. intros w Hw.
        apply windows_slice in Hw. rewrite Ep in Hw.
        exact (proj1 (Forall_forall _ _) Hc w Hw).
      + intros q1 q2 Eq Hc. injection Eq as <- <-.
        apply dead_then; [apply fine_call|]. apply dead_first. cbn [pfor]. apply dead_first.
        assert (Hr : 0 <= g1 <= num_parts mp) by lia.
        apply (proj2 (geom_part true 0 0 g1 Hr Hp)). rewrite Ep. cbn [skipn].
        destruct g1 as [|g1]; [lia|]. rewrite Nat.sub_0_r. cbn [firstn].
        destruct (firstn g1 r2) eqn:Ef; cbn [windows2]; apply Exists_cons_hd; exact Hc.
  Qed.
End Process.

(** ** The condition on the part table *)
Definition descent (w : N * N) : Prop := (snd w < fst w)%N.
Definition overrun (n : N) (w : N * N) : Prop := (fst w < snd w /\ n < snd w)%N.
Definition table_breaks (ck as_poly : bool) (n : N) (parts : list N) : Prop :=
  if ck then Exists descent (windows2 parts)
  else if as_poly then Exists descent (windows2 (tl parts))
  else Exists (overrun n) (windows2 parts).

(** programs whose result is a panic exactly if [P] *)
Definition dies {A} (P : Prop) (g : prog A) : Prop :=
  exists l r, g = calls l (Done r) /\ (r = Err EPanic <-> P).
Lemma dies_err : forall A P e, e <> EPanic -> ~ P -> dies P (Done (Err e : res A)).
Proof. intros A P e H1 H2. exists [], (Err e). split; [reflexivity|]. split; [congruence|contradiction]. Qed.
Lemma dies_panic : forall A (P : Prop), P -> dies P (Done (Err EPanic : res A)).
Proof. intros A P H. exists [], (Err EPanic). split; [reflexivity|]. split; auto. Qed.
Lemma dies_ret : forall A (P : Prop) (a : A), ~ P -> dies P (pret a).
Proof. intros A P a H. exists [], (Ok a). split; [reflexivity|]. split; [discriminate|contradiction]. Qed.
Lemma dies_fine : forall A (P : Prop) (g : prog A), ~ P -> fine g -> dies P g.
Proof. intros A P g H [l [a ->]]. exists l, (Ok a). split; [reflexivity|]. split; [discriminate|contradiction]. Qed.
Lemma dies_dead : forall A (P : Prop) (g : prog A), P -> dead g -> dies P g.
Proof. intros A P g H [l ->]. exists l, (Err EPanic). split; [reflexivity|]. split; auto. Qed.
Lemma dies_quiet : forall A (P : Prop) (g : prog A), ~ P -> quiet g -> dies P g.
Proof. intros A P g H [l [r [-> Hr]]]. exists l, r. split; [reflexivity|]. split; contradiction. Qed.
Lemma dies_map : forall A B (P : Prop) (g : prog A) (f : A -> B), dies P g -> dies P (pbind g (fun a => pret (f a))).
Proof.
  intros A B P g f [l [r [-> H]]]. rewrite pbind_calls. destruct r as [a|e]; cbn [pbind].
  - exists l, (Ok (f a)). split; [reflexivity|]. rewrite <- H. split; discriminate.
  - exists l, (Err e). split; [reflexivity|]. rewrite <- H. split; congruence.
Qed.

Lemma exists_or_forall : forall A (P : A -> Prop) (l : list A), (forall a, P a \/ ~ P a) ->
  Exists P l \/ Forall (fun a => ~ P a) l.
Proof.
  intros A P l Hd. induction l as [|a l IH]; [now right|].
  destruct (Hd a) as [H|H]; [left; now constructor|]. destruct IH; [left; now right|right; now constructor].
Qed.

Lemma sorted_bounded : forall (l : list N) n, Forall (fun w => ~ descent w) (windows2 (l ++ [N.of_nat n])) ->
  Forall (bounded n) (windows2 (l ++ [N.of_nat n])).
Proof.
  intros l n H. assert (Hw : forall a c, In (a, c) (windows2 (l ++ [N.of_nat n])) -> (a <= c)%N).
  { intros a c Hin. pose proof (proj1 (Forall_forall _ _) H _ Hin) as G. unfold descent in G. cbn [fst snd] in G. lia. }
  apply Forall_forall. intros [a c] Hin. split; cbn [fst snd]; [now apply Hw|].
  apply (sorted_last l _ Hw). apply windows_nth in Hin as [i [_ Hc]]. exact (nth_error_In _ _ Hc).
Qed.

Lemma process_dies : forall ck d as_poly index coords zs ms,
  (zs = [] \/ length zs = length coords) -> (ms = [] \/ length ms = length coords) ->
  let parts := index ++ [N.of_nat (length coords)] in
  dies (table_breaks ck as_poly (N.of_nat (length coords)) parts)
       (process_multipart ck d as_poly (mkMultipart parts coords zs ms)).
Proof.
  intros ck d as_poly index coords zs ms Hz Hm parts.
  assert (Hd : forall w, descent w \/ ~ descent w).
  { intros [a c]. unfold descent. cbn [fst snd]. lia. }
  assert (Ho : forall w, overrun (N.of_nat (length coords)) w \/ ~ overrun (N.of_nat (length coords)) w).
  { intros [a c]. unfold overrun. cbn [fst snd]. lia. }
  assert (Hlen : 0 < length (mp_parts (mkMultipart parts coords zs ms))).
  { cbn [mp_parts]. unfold parts. rewrite app_length. cbn [length]. lia. }
  assert (Hcalm : forall w, bounded (length coords) w -> calm ck (length coords) w).
  { intros [a c] [B1 B2]. split; cbn [fst snd] in *; auto. }
  destruct as_poly.
  - destruct index as [|p0 index].
    + (* no parts *)
      pose proof (polygon_process ck d (mkMultipart parts coords zs ms) Hz Hm (N.of_nat (length coords)) [] eq_refl) as [_ H].
      destruct (H (Forall_nil _)) as [H1 _]. apply dies_fine.
      * unfold table_breaks, parts. cbn [app windows2 tl]. destruct ck; intros G; inversion G.
      * apply H1. constructor.
    + pose proof (polygon_process ck d (mkMultipart parts coords zs ms) Hz Hm p0 (index ++ [N.of_nat (length coords)]) eq_refl) as [H1 H2].
      destruct (exists_or_forall _ _ (windows2 (index ++ [N.of_nat (length coords)])) Hd) as [He|Hf].
      * apply dies_dead.
        -- unfold table_breaks, parts. cbn [app tl]. destruct ck; [|exact He].
           destruct (index ++ [N.of_nat (length coords)]) as [|p1 r2] eqn:E; [destruct index; discriminate|].
           change (windows2 (p0 :: p1 :: r2)) with ((p0, p1) :: windows2 (p1 :: r2)). now right.
        -- apply H1. eapply Exists_impl; [|exact He]. intros [a c] G [B1 B2]. unfold descent in G. cbn [fst snd] in *. lia.
      * pose proof (sorted_bounded _ _ Hf) as Hb. destruct (H2 Hb) as [Hfine Hdead]. clear H1 H2.
        destruct (index ++ [N.of_nat (length coords)]) as [|p1 r2] eqn:E; [destruct index; discriminate|].
        assert (Hp1 : (p1 <= N.of_nat (length coords))%N).
        { rewrite <- E in Hf. apply (sorted_last index).
          - intros a c Hin. pose proof (proj1 (Forall_forall _ _) Hf _ Hin) as G. unfold descent in G. cbn [fst snd] in G. lia.
          - rewrite E. now left. }
        assert (Eparts : parts = p0 :: p1 :: r2) by (unfold parts; cbn [app]; now rewrite E).
        destruct (calm_dec ck (length coords) (p0, p1)) as [Hc|Hc].
        -- apply dies_fine.
           ++ unfold table_breaks. rewrite Eparts. change (windows2 (p0 :: p1 :: r2)) with ((p0, p1) :: windows2 (p1 :: r2)).
              assert (Hno : ~ Exists descent (windows2 (p1 :: r2))) by now apply Forall_Exists_neg.
              destruct ck; [|exact Hno]. intros G. inversion G as [? ? G1|? ? G1]; subst; [|contradiction].
              destruct Hc as [Hc _]. specialize (Hc eq_refl). unfold descent in G1. cbn [fst snd] in *. lia.
           ++ apply Hfine. cbn [mp_parts mp_coords]. rewrite Eparts.
              change (windows2 (p0 :: p1 :: r2)) with ((p0, p1) :: windows2 (p1 :: r2)). constructor; [exact Hc|].
              eapply Forall_impl; [|exact Hb]. exact Hcalm.
        -- apply dies_dead.
           ++ unfold table_breaks. rewrite Eparts. change (windows2 (p0 :: p1 :: r2)) with ((p0, p1) :: windows2 (p1 :: r2)).
              destruct ck.
              ** left. unfold descent. cbn [fst snd]. destruct (N.leb_spec p0 p1); [|assumption].
                 exfalso. apply Hc. split; cbn [fst snd]; auto.
              ** exfalso. apply Hc. split; cbn [fst snd]; [discriminate|auto].
           ++ now apply (Hdead p1 r2).
  - pose proof (lines_process ck d (mkMultipart parts coords zs ms) Hz Hm Hlen) as [H1 H2].
    cbn [mp_parts mp_coords] in H1, H2. destruct ck.
    + destruct (exists_or_forall _ _ (windows2 parts) Hd) as [He|Hf].
      * apply dies_dead; [exact He|]. apply H2. eapply Exists_impl; [|exact He].
        intros [a c] G [B _]. specialize (B eq_refl). unfold descent in G. cbn [fst snd] in *. lia.
      * apply dies_fine; [now apply Forall_Exists_neg|]. apply H1. eapply Forall_impl; [|exact (sorted_bounded _ _ Hf)]. exact Hcalm.
    + destruct (exists_or_forall _ _ (windows2 parts) Ho) as [He|Hf].
      * apply dies_dead; [exact He|]. apply H2. eapply Exists_impl; [|exact He].
        intros [a c] [G1 G2] [_ B]. cbn [fst snd] in *. specialize (B G1). lia.
      * apply dies_fine; [now apply Forall_Exists_neg|]. apply H1. eapply Forall_impl; [|exact Hf].
        intros [a c] G. split; cbn [fst snd]; [discriminate|]. unfold overrun in G. cbn [fst snd] in G. lia.
Qed.
